(** Syntax trees of functions of /repo/src/ell.cpp (the cited lines), in the language of
    Clite.v.  Generated by tools/gen_ast.py from the source text; do not edit. *)
From Coq Require Import String.
From Verif Require Import Base Clite.
Local Open Scope string_scope.
Local Open Scope Z_scope.

(** src/ell.cpp:32-38 *)
Definition ast_ell_free : fdef := mkFun ["m"]
 (block [(SIf (EBin Ne (EFld (EV "m") "cols") ENull) (SFree (EFld (EV "m") "cols")) SSkip);
 (SIf (EBin Ne (EFld (EV "m") "vals") ENull) (SFree (EFld (EV "m") "vals")) SSkip)]).

(** src/ell.cpp:40-46 *)
Definition ast_ell_set_zero_mat : fdef := mkFun ["m"]
 (block [(SFor "i" (EI 0) (EBin Lt (EV "i") (EFld (EV "m") "nrow")) (SFor "j" (EI 0) (EBin Lt (EV "j") (EFld (EV "m") "nnz")) (SStore (EFld (EV "m") "vals") (EBin Add (EBin Mul (EV "i") (EFld (EV "m") "nnz")) (EV "j")) (EDbl (EI 0)))));
 (SRet (EI 0))]).

(** src/ell.cpp:48-56 *)
Definition ast_ell_mvp_2D : fdef := mkFun ["m"; "x"; "y"]
 (SFor "i" (EI 0) (EBin Lt (EV "i") (EFld (EV "m") "nrow")) (block [(SStore (EV "y") (EV "i") (EI 0));
 (SFor "j" (EI 0) (EBin Lt (EV "j") (EFld (EV "m") "nnz")) (SStore (EV "y") (EV "i") (EBin Add (EIdx (EV "y") (EV "i")) (EBin Mul (EIdx (EFld (EV "m") "vals") (EBin Add (EBin Mul (EV "i") (EFld (EV "m") "nnz")) (EV "j"))) (EIdx (EV "x") (EIdx (EFld (EV "m") "cols") (EBin Add (EBin Mul (EV "i") (EFld (EV "m") "nnz")) (EV "j"))))))))])).

(** src/ell.cpp:58-114 *)
Definition ast_ell_solve_jacobi_2D : fdef := mkFun ["solver"; "m"; "nFields"; "nx"; "ny"; "b"; "x"]
 (block [(SIf (EOr (EOr (EBin Eq (EV "m") ENull) (EBin Eq (EV "b") ENull)) (EBin Eq (EV "x") ENull)) (SRet (EI 1)) SSkip);
 (SMalloc "k" TDbl (EFld (EV "m") "nrow"));
 (SMalloc "e_i" TDbl (EFld (EV "m") "nrow"));
 (SSet "nn" (EBin Mul (EV "nx") (EV "ny")));
 (SFor "i" (EI 0) (EBin Lt (EV "i") (EV "nn")) (SFor "d" (EI 0) (EBin Lt (EV "d") (EV "nFields")) (SStore (EV "k") (EBin Add (EBin Mul (EV "i") (EV "nFields")) (EV "d")) (EBin Div (EI 1) (EIdx (EFld (EV "m") "vals") (EBin Add (EBin Add (EBin Add (EBin Mul (EBin Mul (EV "i") (EV "nFields")) (EFld (EV "m") "nnz")) (EBin Mul (EI 4) (EV "nFields"))) (EBin Mul (EV "d") (EFld (EV "m") "nnz"))) (EV "d")))))));
 (SSet "its" (EI 0));
 (SSet "max_its" (EFld (EV "solver") "max_its"));
 (SSet "min_tol" (EFld (EV "solver") "min_tol"));
 (SWhile (EBin Lt (EV "its") (EV "max_its")) (block [(SSet "err" (EDbl (EI 0)));
 (SSet "i" (EI 0));
 (SWhile (EBin Lt (EV "i") (EFld (EV "m") "nrow")) (block [(SSet "aux" (EDbl (EI 0)));
 (SSet "j" (EI 0));
 (SWhile (EBin Lt (EV "j") (EFld (EV "m") "nnz")) (block [(SIf (EBin Eq (EIdx (EFld (EV "m") "cols") (EBin Add (EBin Mul (EV "i") (EFld (EV "m") "nnz")) (EV "j"))) (ENeg (EI 1))) SBreak SSkip);
 (SIf (EBin Ne (EIdx (EFld (EV "m") "cols") (EBin Add (EBin Mul (EV "i") (EFld (EV "m") "nnz")) (EV "j"))) (EV "i")) (SSet "aux" (EBin Add (EV "aux") (EBin Mul (EIdx (EFld (EV "m") "vals") (EBin Add (EBin Mul (EV "i") (EFld (EV "m") "nnz")) (EV "j"))) (EIdx (EV "x") (EIdx (EFld (EV "m") "cols") (EBin Add (EBin Mul (EV "i") (EFld (EV "m") "nnz")) (EV "j"))))))) SSkip);
 (SSet "j" (EBin Add (EV "j") (EI 1)))]) SSkip);
 (SStore (EV "x") (EV "i") (EBin Mul (EIdx (EV "k") (EV "i")) (EBin Add (EBin Mul (ENeg (EI 1)) (EV "aux")) (EIdx (EV "b") (EV "i")))));
 (SSet "i" (EBin Add (EV "i") (EI 1)))]) SSkip);
 (SSet "err" (EDbl (EI 0)));
 (SCall "ell_mvp_2D" [(EV "m"); (EV "x"); (EV "e_i")]);
 (SFor "i'" (EI 0) (EBin Lt (EV "i'") (EFld (EV "m") "nrow")) (block [(SStore (EV "e_i") (EV "i'") (EBin Sub (EIdx (EV "e_i") (EV "i'")) (EIdx (EV "b") (EV "i'"))));
 (SSet "err" (EBin Add (EV "err") (EBin Mul (EIdx (EV "e_i") (EV "i'")) (EIdx (EV "e_i") (EV "i'")))))]));
 (SSet "err" (ESqrt (EV "err")));
 (SIf (EBin Lt (EV "err") (EV "min_tol")) SBreak SSkip);
 (SSet "its" (EBin Add (EV "its") (EI 1)))]) SSkip);
 (SFld (EV "solver") "err" (EV "err"));
 (SFld (EV "solver") "its" (EV "its"));
 (SRet (EI 0))]).

(** src/ell.cpp:116-205 *)
Definition ast_ell_solve_cgpd_2D : fdef := mkFun ["solver"; "m"; "nFields"; "nx"; "ny"; "b"; "x"]
 (block [(SIf (EOr (EOr (EBin Eq (EV "m") ENull) (EBin Eq (EV "b") ENull)) (EBin Eq (EV "x") ENull)) (SRet (EI 1)) SSkip);
 (SSet "its" (EI 0));
 (SMalloc "k" TDbl (EFld (EV "m") "nrow"));
 (SMalloc "r" TDbl (EFld (EV "m") "nrow"));
 (SMalloc "z" TDbl (EFld (EV "m") "nrow"));
 (SMalloc "p" TDbl (EFld (EV "m") "nrow"));
 (SMalloc "q" TDbl (EFld (EV "m") "nrow"));
 (SSet "nn" (EBin Mul (EV "nx") (EV "ny")));
 (SFor "i" (EI 0) (EBin Lt (EV "i") (EV "nn")) (SFor "d'" (EI 0) (EBin Lt (EV "d'") (EV "nFields")) (SStore (EV "k") (EBin Add (EBin Mul (EV "i") (EV "nFields")) (EV "d'")) (EBin Div (EI 1) (EIdx (EFld (EV "m") "vals") (EBin Add (EBin Add (EBin Add (EBin Mul (EBin Mul (EV "i") (EV "nFields")) (EFld (EV "m") "nnz")) (EBin Mul (EI 4) (EV "nFields"))) (EBin Mul (EV "d'") (EFld (EV "m") "nnz"))) (EV "d'")))))));
 (SCall "ell_mvp_2D" [(EV "m"); (EV "x"); (EV "r")]);
 (SFor "i" (EI 0) (EBin Lt (EV "i") (EFld (EV "m") "nrow")) (SStore (EV "r") (EV "i") (EBin Sub (EIdx (EV "r") (EV "i")) (EIdx (EV "b") (EV "i")))));
 (SDo (block [(SSet "err" (EDbl (EI 0)));
 (SFor "i" (EI 0) (EBin Lt (EV "i") (EFld (EV "m") "nrow")) (SSet "err" (EBin Add (EV "err") (EBin Mul (EIdx (EV "r") (EV "i")) (EIdx (EV "r") (EV "i"))))));
 (SSet "err" (ESqrt (EV "err")));
 (SIf (EBin Lt (EV "err") (EFld (EV "solver") "min_tol")) SBreak SSkip);
 (SFor "i" (EI 0) (EBin Lt (EV "i") (EFld (EV "m") "nrow")) (SStore (EV "z") (EV "i") (EBin Mul (EIdx (EV "k") (EV "i")) (EIdx (EV "r") (EV "i")))));
 (SSet "rho_1" (EDbl (EI 0)));
 (SFor "i" (EI 0) (EBin Lt (EV "i") (EFld (EV "m") "nrow")) (SSet "rho_1" (EBin Add (EV "rho_1") (EBin Mul (EIdx (EV "r") (EV "i")) (EIdx (EV "z") (EV "i"))))));
 (SIf (EBin Eq (EV "its") (EI 0)) (SFor "i" (EI 0) (EBin Lt (EV "i") (EFld (EV "m") "nrow")) (SStore (EV "p") (EV "i") (EIdx (EV "z") (EV "i")))) (block [(SSet "beta" (EBin Div (EV "rho_1") (EV "rho_0")));
 (SFor "i" (EI 0) (EBin Lt (EV "i") (EFld (EV "m") "nrow")) (SStore (EV "p") (EV "i") (EBin Add (EIdx (EV "z") (EV "i")) (EBin Mul (EV "beta") (EIdx (EV "p") (EV "i"))))))]));
 (SCall "ell_mvp_2D" [(EV "m"); (EV "p"); (EV "q")]);
 (SSet "aux" (EDbl (EI 0)));
 (SFor "i" (EI 0) (EBin Lt (EV "i") (EFld (EV "m") "nrow")) (SSet "aux" (EBin Add (EV "aux") (EBin Mul (EIdx (EV "p") (EV "i")) (EIdx (EV "q") (EV "i"))))));
 (SSet "d" (EBin Div (EV "rho_1") (EV "aux")));
 (SFor "i" (EI 0) (EBin Lt (EV "i") (EFld (EV "m") "nrow")) (block [(SStore (EV "x") (EV "i") (EBin Sub (EIdx (EV "x") (EV "i")) (EBin Mul (EV "d") (EIdx (EV "p") (EV "i")))));
 (SStore (EV "r") (EV "i") (EBin Sub (EIdx (EV "r") (EV "i")) (EBin Mul (EV "d") (EIdx (EV "q") (EV "i")))))]));
 (SSet "rho_0" (EV "rho_1"));
 (SSet "its" (EBin Add (EV "its") (EI 1)))]) (EBin Lt (EV "its") (EFld (EV "solver") "max_its")));
 (SFld (EV "solver") "err" (EV "err"));
 (SFld (EV "solver") "its" (EV "its"));
 (SFree (EV "k"));
 (SFree (EV "r"));
 (SFree (EV "z"));
 (SFree (EV "p"));
 (SFree (EV "q"));
 (SRet (EI 0))]).

(** src/ell.cpp:207-300 *)
Definition ast_ell_solve_cgpd_struct : fdef := mkFun ["solver"; "m"; "nFields"; "dim"; "nn"; "b"; "x"]
 (block [(SIf (EOr (EOr (EBin Eq (EV "m") ENull) (EBin Eq (EV "b") ENull)) (EBin Eq (EV "x") ENull)) (SRet (EI 1)) SSkip);
 (SSet "its" (EI 0));
 (SMalloc "k" TDbl (EFld (EV "m") "nrow"));
 (SMalloc "r" TDbl (EFld (EV "m") "nrow"));
 (SMalloc "z" TDbl (EFld (EV "m") "nrow"));
 (SMalloc "p" TDbl (EFld (EV "m") "nrow"));
 (SMalloc "q" TDbl (EFld (EV "m") "nrow"));
 (SIf (EBin Eq (EV "dim") (EI 2)) (SFor "i" (EI 0) (EBin Lt (EV "i") (EV "nn")) (SFor "d'" (EI 0) (EBin Lt (EV "d'") (EV "nFields")) (SStore (EV "k") (EBin Add (EBin Mul (EV "i") (EV "nFields")) (EV "d'")) (EBin Div (EI 1) (EIdx (EFld (EV "m") "vals") (EBin Add (EBin Add (EBin Add (EBin Mul (EBin Mul (EV "i") (EV "nFields")) (EFld (EV "m") "nnz")) (EBin Mul (EI 4) (EV "nFields"))) (EBin Mul (EV "d'") (EFld (EV "m") "nnz"))) (EV "d'"))))))) (SIf (EBin Eq (EV "dim") (EI 3)) (SFor "i" (EI 0) (EBin Lt (EV "i") (EV "nn")) (SFor "d'" (EI 0) (EBin Lt (EV "d'") (EV "nFields")) (SStore (EV "k") (EBin Add (EBin Mul (EV "i") (EV "nFields")) (EV "d'")) (EBin Div (EI 1) (EIdx (EFld (EV "m") "vals") (EBin Add (EBin Add (EBin Add (EBin Mul (EBin Mul (EV "i") (EV "nFields")) (EFld (EV "m") "nnz")) (EBin Mul (EI 13) (EV "nFields"))) (EBin Mul (EV "d'") (EFld (EV "m") "nnz"))) (EV "d'"))))))) SSkip));
 (SCall "ell_mvp_2D" [(EV "m"); (EV "x"); (EV "r")]);
 (SFor "i" (EI 0) (EBin Lt (EV "i") (EFld (EV "m") "nrow")) (SStore (EV "r") (EV "i") (EBin Sub (EIdx (EV "r") (EV "i")) (EIdx (EV "b") (EV "i")))));
 (SDo (block [(SSet "err" (EDbl (EI 0)));
 (SFor "i" (EI 0) (EBin Lt (EV "i") (EFld (EV "m") "nrow")) (SSet "err" (EBin Add (EV "err") (EBin Mul (EIdx (EV "r") (EV "i")) (EIdx (EV "r") (EV "i"))))));
 (SSet "err" (ESqrt (EV "err")));
 (SIf (EBin Lt (EV "err") (EFld (EV "solver") "min_tol")) SBreak SSkip);
 (SFor "i" (EI 0) (EBin Lt (EV "i") (EFld (EV "m") "nrow")) (SStore (EV "z") (EV "i") (EBin Mul (EIdx (EV "k") (EV "i")) (EIdx (EV "r") (EV "i")))));
 (SSet "rho_1" (EDbl (EI 0)));
 (SFor "i" (EI 0) (EBin Lt (EV "i") (EFld (EV "m") "nrow")) (SSet "rho_1" (EBin Add (EV "rho_1") (EBin Mul (EIdx (EV "r") (EV "i")) (EIdx (EV "z") (EV "i"))))));
 (SIf (EBin Eq (EV "its") (EI 0)) (SFor "i" (EI 0) (EBin Lt (EV "i") (EFld (EV "m") "nrow")) (SStore (EV "p") (EV "i") (EIdx (EV "z") (EV "i")))) (block [(SSet "beta" (EBin Div (EV "rho_1") (EV "rho_0")));
 (SFor "i" (EI 0) (EBin Lt (EV "i") (EFld (EV "m") "nrow")) (SStore (EV "p") (EV "i") (EBin Add (EIdx (EV "z") (EV "i")) (EBin Mul (EV "beta") (EIdx (EV "p") (EV "i"))))))]));
 (SCall "ell_mvp_2D" [(EV "m"); (EV "p"); (EV "q")]);
 (SSet "aux" (EDbl (EI 0)));
 (SFor "i" (EI 0) (EBin Lt (EV "i") (EFld (EV "m") "nrow")) (SSet "aux" (EBin Add (EV "aux") (EBin Mul (EIdx (EV "p") (EV "i")) (EIdx (EV "q") (EV "i"))))));
 (SSet "d" (EBin Div (EV "rho_1") (EV "aux")));
 (SFor "i" (EI 0) (EBin Lt (EV "i") (EFld (EV "m") "nrow")) (block [(SStore (EV "x") (EV "i") (EBin Sub (EIdx (EV "x") (EV "i")) (EBin Mul (EV "d") (EIdx (EV "p") (EV "i")))));
 (SStore (EV "r") (EV "i") (EBin Sub (EIdx (EV "r") (EV "i")) (EBin Mul (EV "d") (EIdx (EV "q") (EV "i")))))]));
 (SSet "rho_0" (EV "rho_1"));
 (SSet "its" (EBin Add (EV "its") (EI 1)))]) (EBin Lt (EV "its") (EFld (EV "solver") "max_its")));
 (SFld (EV "solver") "err" (EV "err"));
 (SFld (EV "solver") "its" (EV "its"));
 (SFree (EV "k"));
 (SFree (EV "r"));
 (SFree (EV "z"));
 (SFree (EV "p"));
 (SFree (EV "q"));
 (SRet (EI 0))]).

(** src/ell.cpp:329-358 *)
Definition ast_ell_add_struct2D : fdef := mkFun ["m"; "ex"; "ey"; "Ae"; "nFields"; "nx"; "ny"]
 (block [(SSet "npe" (EI 4));
 (SSet "nnz" (EFld (EV "m") "nnz"));
 (SArr "cols_row" [(EI 4); (EI 5); (EI 8); (EI 7); (EI 3); (EI 4); (EI 7); (EI 6); (EI 0); (EI 1); (EI 4); (EI 3); (EI 1); (EI 2); (EI 5); (EI 4)]);
 (SArr "sn" [(EBin Add (EBin Mul (EV "ey") (EV "nx")) (EV "ex")); (EBin Add (EBin Add (EBin Mul (EV "ey") (EV "nx")) (EV "ex")) (EI 1)); (EBin Add (EBin Add (EBin Mul (EBin Add (EV "ey") (EI 1)) (EV "nx")) (EV "ex")) (EI 1)); (EBin Add (EBin Mul (EBin Add (EV "ey") (EI 1)) (EV "nx")) (EV "ex"))]);
 (SSet "nFieldsnnz" (EBin Mul (EV "nFields") (EV "nnz")));
 (SSet "npenFields" (EBin Mul (EV "npe") (EV "nFields")));
 (SSet "npenFields2" (EBin Mul (EBin Mul (EV "npe") (EV "nFields")) (EV "nFields")));
 (SFor "i" (EI 0) (EBin Lt (EV "i") (EV "nFields")) (SFor "n" (EI 0) (EBin Lt (EV "n") (EV "npe")) (SFor "k" (EI 0) (EBin Lt (EV "k") (EI 4)) (SFor "j" (EI 0) (EBin Lt (EV "j") (EV "nFields")) (SStore (EFld (EV "m") "vals") (EBin Add (EBin Add (EBin Add (EBin Mul (EIdx (EV "sn") (EV "k")) (EV "nFieldsnnz")) (EBin Mul (EV "i") (EV "nnz"))) (EBin Mul (EIdx2 4 (EV "cols_row") (EV "k") (EV "n")) (EV "nFields"))) (EV "j")) (EBin Add (EIdx (EFld (EV "m") "vals") (EBin Add (EBin Add (EBin Add (EBin Mul (EIdx (EV "sn") (EV "k")) (EV "nFieldsnnz")) (EBin Mul (EV "i") (EV "nnz"))) (EBin Mul (EIdx2 4 (EV "cols_row") (EV "k") (EV "n")) (EV "nFields"))) (EV "j"))) (EIdx (EV "Ae") (EBin Add (EBin Add (EBin Add (EBin Mul (EV "k") (EV "npenFields2")) (EBin Mul (EV "i") (EV "npenFields"))) (EBin Mul (EV "n") (EV "nFields"))) (EV "j")))))))))]).

(** src/ell.cpp:360-399 *)
Definition ast_ell_add_struct3D : fdef := mkFun ["m"; "ex"; "ey"; "ez"; "Ae"; "nFields"; "nx"; "ny"; "nz"]
 (block [(SSet "npe" (EI 8));
 (SSet "nnz" (EFld (EV "m") "nnz"));
 (SArr "cols_row" [(EI 13); (EI 14); (EI 17); (EI 16); (EI 22); (EI 23); (EI 26); (EI 25); (EI 12); (EI 13); (EI 16); (EI 15); (EI 21); (EI 22); (EI 25); (EI 24); (EI 9); (EI 10); (EI 13); (EI 12); (EI 18); (EI 19); (EI 22); (EI 21); (EI 10); (EI 11); (EI 14); (EI 13); (EI 19); (EI 20); (EI 23); (EI 22); (EI 4); (EI 5); (EI 8); (EI 7); (EI 13); (EI 14); (EI 17); (EI 16); (EI 3); (EI 4); (EI 7); (EI 6); (EI 12); (EI 13); (EI 16); (EI 15); (EI 0); (EI 1); (EI 4); (EI 3); (EI 9); (EI 10); (EI 13); (EI 12); (EI 1); (EI 2); (EI 5); (EI 4); (EI 10); (EI 11); (EI 14); (EI 13)]);
 (SSet "n0" (EBin Add (EBin Add (EBin Mul (EV "ez") (EBin Mul (EV "nx") (EV "ny"))) (EBin Mul (EV "ey") (EV "nx"))) (EV "ex")));
 (SSet "n1" (EBin Add (EBin Add (EBin Add (EBin Mul (EV "ez") (EBin Mul (EV "nx") (EV "ny"))) (EBin Mul (EV "ey") (EV "nx"))) (EV "ex")) (EI 1)));
 (SSet "n2" (EBin Add (EBin Add (EBin Add (EBin Mul (EV "ez") (EBin Mul (EV "nx") (EV "ny"))) (EBin Mul (EBin Add (EV "ey") (EI 1)) (EV "nx"))) (EV "ex")) (EI 1)));
 (SSet "n3" (EBin Add (EBin Add (EBin Mul (EV "ez") (EBin Mul (EV "nx") (EV "ny"))) (EBin Mul (EBin Add (EV "ey") (EI 1)) (EV "nx"))) (EV "ex")));
 (SArr "sn" [(EV "n0"); (EV "n1"); (EV "n2"); (EV "n3"); (EBin Add (EV "n0") (EBin Mul (EV "nx") (EV "ny"))); (EBin Add (EV "n1") (EBin Mul (EV "nx") (EV "ny"))); (EBin Add (EV "n2") (EBin Mul (EV "nx") (EV "ny"))); (EBin Add (EV "n3") (EBin Mul (EV "nx") (EV "ny")))]);
 (SSet "nFieldsnnz" (EBin Mul (EV "nFields") (EV "nnz")));
 (SSet "npenFields" (EBin Mul (EV "npe") (EV "nFields")));
 (SSet "npenFields2" (EBin Mul (EBin Mul (EV "npe") (EV "nFields")) (EV "nFields")));
 (SFor "i" (EI 0) (EBin Lt (EV "i") (EV "nFields")) (SFor "n" (EI 0) (EBin Lt (EV "n") (EV "npe")) (SFor "k" (EI 0) (EBin Lt (EV "k") (EI 8)) (SFor "j" (EI 0) (EBin Lt (EV "j") (EV "nFields")) (SStore (EFld (EV "m") "vals") (EBin Add (EBin Add (EBin Add (EBin Mul (EIdx (EV "sn") (EV "k")) (EV "nFieldsnnz")) (EBin Mul (EV "i") (EV "nnz"))) (EBin Mul (EIdx2 8 (EV "cols_row") (EV "k") (EV "n")) (EV "nFields"))) (EV "j")) (EBin Add (EIdx (EFld (EV "m") "vals") (EBin Add (EBin Add (EBin Add (EBin Mul (EIdx (EV "sn") (EV "k")) (EV "nFieldsnnz")) (EBin Mul (EV "i") (EV "nnz"))) (EBin Mul (EIdx2 8 (EV "cols_row") (EV "k") (EV "n")) (EV "nFields"))) (EV "j"))) (EIdx (EV "Ae") (EBin Add (EBin Add (EBin Add (EBin Mul (EV "k") (EV "npenFields2")) (EBin Mul (EV "i") (EV "npenFields"))) (EBin Mul (EV "n") (EV "nFields"))) (EV "j")))))))))]).

(** src/ell.cpp:401-535 *)
Definition ast_ell_set_bc_2D : fdef := mkFun ["m"; "nFields"; "nx"; "ny"]
 (block [(SSet "nnz" (EFld (EV "m") "nnz"));
 (SSet "mvals" (EFld (EV "m") "vals"));
 (SFor "d" (EI 0) (EBin Lt (EV "d") (EV "nFields")) (SFor "n" (EI 0) (EBin Lt (EV "n") (EV "nx")) (block [(SFor "j" (EI 0) (EBin Lt (EV "j") (EV "nnz")) (SStore (EV "mvals") (EBin Add (EBin Add (EBin Mul (EBin Mul (EV "n") (EV "nFields")) (EV "nnz")) (EBin Mul (EV "d") (EV "nnz"))) (EV "j")) (EI 0)));
 (SStore (EV "mvals") (EBin Add (EBin Add (EBin Add (EBin Mul (EBin Mul (EV "n") (EV "nFields")) (EV "nnz")) (EBin Mul (EV "d") (EV "nnz"))) (EBin Mul (EI 4) (EV "nFields"))) (EV "d")) (EI 1))])));
 (SFor "d" (EI 0) (EBin Lt (EV "d") (EV "nFields")) (SFor "n" (EI 0) (EBin Lt (EV "n") (EV "nx")) (block [(SFor "j" (EI 0) (EBin Lt (EV "j") (EV "nnz")) (SStore (EV "mvals") (EBin Add (EBin Add (EBin Mul (EBin Mul (EBin Add (EV "n") (EBin Mul (EBin Sub (EV "ny") (EI 1)) (EV "nx"))) (EV "nFields")) (EV "nnz")) (EBin Mul (EV "d") (EV "nnz"))) (EV "j")) (EI 0)));
 (SStore (EV "mvals") (EBin Add (EBin Add (EBin Add (EBin Mul (EBin Mul (EBin Add (EV "n") (EBin Mul (EBin Sub (EV "ny") (EI 1)) (EV "nx"))) (EV "nFields")) (EV "nnz")) (EBin Mul (EV "d") (EV "nnz"))) (EBin Mul (EI 4) (EV "nFields"))) (EV "d")) (EI 1))])));
 (SFor "d" (EI 0) (EBin Lt (EV "d") (EV "nFields")) (SFor "n" (EI 0) (EBin Lt (EV "n") (EBin Sub (EV "ny") (EI 2))) (block [(SFor "j" (EI 0) (EBin Lt (EV "j") (EV "nnz")) (SStore (EV "mvals") (EBin Add (EBin Add (EBin Mul (EBin Mul (EBin Mul (EBin Add (EV "n") (EI 1)) (EV "nx")) (EV "nFields")) (EV "nnz")) (EBin Mul (EV "d") (EV "nnz"))) (EV "j")) (EI 0)));
 (SStore (EV "mvals") (EBin Add (EBin Add (EBin Add (EBin Mul (EBin Mul (EBin Mul (EBin Add (EV "n") (EI 1)) (EV "nx")) (EV "nFields")) (EV "nnz")) (EBin Mul (EV "d") (EV "nnz"))) (EBin Mul (EI 4) (EV "nFields"))) (EV "d")) (EI 1))])));
 (SFor "d" (EI 0) (EBin Lt (EV "d") (EV "nFields")) (SFor "n" (EI 0) (EBin Lt (EV "n") (EBin Sub (EV "ny") (EI 2))) (block [(SFor "j" (EI 0) (EBin Lt (EV "j") (EV "nnz")) (SStore (EV "mvals") (EBin Add (EBin Add (EBin Mul (EBin Mul (EBin Sub (EBin Mul (EBin Add (EV "n") (EI 2)) (EV "nx")) (EI 1)) (EV "nFields")) (EV "nnz")) (EBin Mul (EV "d") (EV "nnz"))) (EV "j")) (EI 0)));
 (SStore (EV "mvals") (EBin Add (EBin Add (EBin Add (EBin Mul (EBin Mul (EBin Sub (EBin Mul (EBin Add (EV "n") (EI 2)) (EV "nx")) (EI 1)) (EV "nFields")) (EV "nnz")) (EBin Mul (EV "d") (EV "nnz"))) (EBin Mul (EI 4) (EV "nFields"))) (EV "d")) (EI 1))])));
 (SFor "d1" (EI 0) (EBin Lt (EV "d1") (EV "nFields")) (block [(SSet "n" (EBin Add (EV "nx") (EI 2)));
 (SFor "i" (EI 0) (EBin Lt (EV "i") (EBin Sub (EV "nx") (EI 4))) (block [(SFor "l" (EI 0) (EBin Lt (EV "l") (EI 3)) (SFor "d2" (EI 0) (EBin Lt (EV "d2") (EV "nFields")) (SStore (EV "mvals") (EBin Add (EBin Add (EBin Add (EBin Mul (EBin Mul (EV "n") (EV "nFields")) (EV "nnz")) (EBin Mul (EV "d1") (EV "nnz"))) (EBin Mul (EV "l") (EV "nFields"))) (EV "d2")) (EI 0))));
 (SSet "n" (EBin Add (EV "n") (EI 1)))]))]));
 (SFor "d1" (EI 0) (EBin Lt (EV "d1") (EV "nFields")) (block [(SSet "n" (EBin Add (EBin Mul (EBin Sub (EV "ny") (EI 2)) (EV "nx")) (EI 2)));
 (SFor "i" (EI 0) (EBin Lt (EV "i") (EBin Sub (EV "nx") (EI 4))) (block [(SFor "l" (EI 6) (EBin Lt (EV "l") (EI 9)) (SFor "d2" (EI 0) (EBin Lt (EV "d2") (EV "nFields")) (SStore (EV "mvals") (EBin Add (EBin Add (EBin Add (EBin Mul (EBin Mul (EV "n") (EV "nFields")) (EV "nnz")) (EBin Mul (EV "d1") (EV "nnz"))) (EBin Mul (EI 6) (EV "nFields"))) (EV "d2")) (EI 0))));
 (SSet "n" (EBin Add (EV "n") (EI 1)))]))]));
 (block [(SArr "tmp" [(EI 0); (EI 3); (EI 6)]);
 (SFor "d1" (EI 0) (EBin Lt (EV "d1") (EV "nFields")) (block [(SSet "n" (EBin Add (EBin Mul (EI 2) (EV "nx")) (EI 1)));
 (SFor "i" (EI 0) (EBin Lt (EV "i") (EBin Sub (EV "ny") (EI 4))) (block [(SFor "l_pos" (EI 0) (EBin Lt (EV "l_pos") (EI 3)) (block [(SSet "l" (EIdx (EV "tmp") (EV "l_pos")));
 (SFor "d2" (EI 0) (EBin Lt (EV "d2") (EV "nFields")) (SStore (EV "mvals") (EBin Add (EBin Add (EBin Add (EBin Mul (EBin Mul (EV "n") (EV "nFields")) (EV "nnz")) (EBin Mul (EV "d1") (EV "nnz"))) (EBin Mul (EV "l") (EV "nFields"))) (EV "d2")) (EI 0)))]));
 (SSet "n" (EBin Add (EV "n") (EV "nx")))]))]))]);
 (block [(SArr "tmp" [(EI 2); (EI 5); (EI 8)]);
 (SFor "d1" (EI 0) (EBin Lt (EV "d1") (EV "nFields")) (block [(SSet "n" (EBin Sub (EBin Mul (EI 4) (EV "nx")) (EI 1)));
 (SFor "i" (EI 0) (EBin Lt (EV "i") (EBin Sub (EV "ny") (EI 4))) (block [(SFor "l_pos" (EI 0) (EBin Lt (EV "l_pos") (EI 3)) (block [(SSet "l" (EIdx (EV "tmp") (EV "l_pos")));
 (SFor "d2" (EI 0) (EBin Lt (EV "d2") (EV "nFields")) (SStore (EV "mvals") (EBin Add (EBin Add (EBin Add (EBin Mul (EBin Mul (EV "n") (EV "nFields")) (EV "nnz")) (EBin Mul (EV "d1") (EV "nnz"))) (EBin Mul (EV "l") (EV "nFields"))) (EV "d2")) (EI 0)))]));
 (SSet "n" (EBin Add (EV "n") (EV "nx")))]))]))]);
 (block [(SArr "tmp" [(EI 0); (EI 1); (EI 2); (EI 3); (EI 6)]);
 (SFor "d1" (EI 0) (EBin Lt (EV "d1") (EV "nFields")) (block [(SSet "n" (EBin Add (EV "nx") (EI 1)));
 (SFor "l_pos" (EI 0) (EBin Lt (EV "l_pos") (EI 5)) (block [(SSet "l" (EIdx (EV "tmp") (EV "l_pos")));
 (SFor "d2" (EI 0) (EBin Lt (EV "d2") (EV "nFields")) (SStore (EV "mvals") (EBin Add (EBin Add (EBin Add (EBin Mul (EBin Mul (EV "n") (EV "nFields")) (EV "nnz")) (EBin Mul (EV "d1") (EV "nnz"))) (EBin Mul (EV "l") (EV "nFields"))) (EV "d2")) (EI 0)))]))]))]);
 (block [(SArr "tmp" [(EI 0); (EI 1); (EI 2); (EI 5); (EI 8)]);
 (SFor "d1" (EI 0) (EBin Lt (EV "d1") (EV "nFields")) (block [(SSet "n" (EBin Sub (EBin Mul (EI 2) (EV "nx")) (EI 2)));
 (SFor "l_pos" (EI 0) (EBin Lt (EV "l_pos") (EI 5)) (block [(SSet "l" (EIdx (EV "tmp") (EV "l_pos")));
 (SFor "d2" (EI 0) (EBin Lt (EV "d2") (EV "nFields")) (SStore (EV "mvals") (EBin Add (EBin Add (EBin Add (EBin Mul (EBin Mul (EV "n") (EV "nFields")) (EV "nnz")) (EBin Mul (EV "d1") (EV "nnz"))) (EBin Mul (EV "l") (EV "nFields"))) (EV "d2")) (EI 0)))]))]))]);
 (block [(SArr "tmp" [(EI 2); (EI 5); (EI 6); (EI 7); (EI 8)]);
 (SFor "d1" (EI 0) (EBin Lt (EV "d1") (EV "nFields")) (block [(SSet "n" (EBin Sub (EBin Mul (EBin Sub (EV "ny") (EI 1)) (EV "nx")) (EI 1)));
 (SFor "l_pos" (EI 0) (EBin Lt (EV "l_pos") (EI 5)) (block [(SSet "l" (EIdx (EV "tmp") (EV "l_pos")));
 (SFor "d2" (EI 0) (EBin Lt (EV "d2") (EV "nFields")) (SStore (EV "mvals") (EBin Add (EBin Add (EBin Add (EBin Mul (EBin Mul (EV "n") (EV "nFields")) (EV "nnz")) (EBin Mul (EV "d1") (EV "nnz"))) (EBin Mul (EV "l") (EV "nFields"))) (EV "d2")) (EI 0)))]))]))]);
 (block [(SArr "tmp" [(EI 0); (EI 3); (EI 6); (EI 7); (EI 8)]);
 (SFor "d1" (EI 0) (EBin Lt (EV "d1") (EV "nFields")) (block [(SSet "n" (EBin Add (EBin Mul (EBin Sub (EV "ny") (EI 2)) (EV "nx")) (EI 1)));
 (SFor "l_pos" (EI 0) (EBin Lt (EV "l_pos") (EI 5)) (block [(SSet "l" (EIdx (EV "tmp") (EV "l_pos")));
 (SFor "d2" (EI 0) (EBin Lt (EV "d2") (EV "nFields")) (SStore (EV "mvals") (EBin Add (EBin Add (EBin Add (EBin Mul (EBin Mul (EV "n") (EV "nFields")) (EV "nnz")) (EBin Mul (EV "d1") (EV "nnz"))) (EBin Mul (EV "l") (EV "nFields"))) (EV "d2")) (EI 0)))]))]))])]).

(** src/ell.cpp:537-705 *)
Definition ast_ell_set_bc_3D : fdef := mkFun ["m"; "nFields"; "nx"; "ny"; "nz"]
 (block [(SSet "nnz" (EFld (EV "m") "nnz"));
 (SSet "mvals" (EFld (EV "m") "vals"));
 (SFor "d" (EI 0) (EBin Lt (EV "d") (EV "nFields")) (SFor "i" (EI 0) (EBin Lt (EV "i") (EV "nx")) (SFor "j" (EI 0) (EBin Lt (EV "j") (EV "ny")) (block [(SSet "n" (EBin Add (EBin Add (EBin Mul (EBin Mul (EI 0) (EV "nx")) (EV "ny")) (EBin Mul (EV "j") (EV "nx"))) (EV "i")));
 (SFor "col" (EI 0) (EBin Lt (EV "col") (EV "nnz")) (SStore (EV "mvals") (EBin Add (EBin Add (EBin Mul (EBin Mul (EV "n") (EV "nFields")) (EV "nnz")) (EBin Mul (EV "d") (EV "nnz"))) (EV "col")) (EI 0)));
 (SStore (EV "mvals") (EBin Add (EBin Add (EBin Add (EBin Mul (EBin Mul (EV "n") (EV "nFields")) (EV "nnz")) (EBin Mul (EV "d") (EV "nnz"))) (EBin Mul (EI 13) (EV "nFields"))) (EV "d")) (EI 1))]))));
 (SFor "d" (EI 0) (EBin Lt (EV "d") (EV "nFields")) (SFor "i" (EI 0) (EBin Lt (EV "i") (EV "nx")) (SFor "j" (EI 0) (EBin Lt (EV "j") (EV "ny")) (block [(SSet "n" (EBin Add (EBin Add (EBin Mul (EBin Mul (EBin Sub (EV "nz") (EI 1)) (EV "nx")) (EV "ny")) (EBin Mul (EV "j") (EV "nx"))) (EV "i")));
 (SFor "col" (EI 0) (EBin Lt (EV "col") (EV "nnz")) (SStore (EV "mvals") (EBin Add (EBin Add (EBin Mul (EBin Mul (EV "n") (EV "nFields")) (EV "nnz")) (EBin Mul (EV "d") (EV "nnz"))) (EV "col")) (EI 0)));
 (SStore (EV "mvals") (EBin Add (EBin Add (EBin Add (EBin Mul (EBin Mul (EV "n") (EV "nFields")) (EV "nnz")) (EBin Mul (EV "d") (EV "nnz"))) (EBin Mul (EI 13) (EV "nFields"))) (EV "d")) (EI 1))]))));
 (SFor "d" (EI 0) (EBin Lt (EV "d") (EV "nFields")) (SFor "i" (EI 0) (EBin Lt (EV "i") (EV "nx")) (SFor "k" (EI 0) (EBin Lt (EV "k") (EV "nz")) (block [(SSet "n" (EBin Add (EBin Add (EBin Mul (EBin Mul (EV "k") (EV "nx")) (EV "ny")) (EBin Mul (EI 0) (EV "nx"))) (EV "i")));
 (SFor "col" (EI 0) (EBin Lt (EV "col") (EV "nnz")) (SStore (EV "mvals") (EBin Add (EBin Add (EBin Mul (EBin Mul (EV "n") (EV "nFields")) (EV "nnz")) (EBin Mul (EV "d") (EV "nnz"))) (EV "col")) (EI 0)));
 (SStore (EV "mvals") (EBin Add (EBin Add (EBin Add (EBin Mul (EBin Mul (EV "n") (EV "nFields")) (EV "nnz")) (EBin Mul (EV "d") (EV "nnz"))) (EBin Mul (EI 13) (EV "nFields"))) (EV "d")) (EI 1))]))));
 (SFor "d" (EI 0) (EBin Lt (EV "d") (EV "nFields")) (SFor "i" (EI 0) (EBin Lt (EV "i") (EV "nx")) (SFor "k" (EI 0) (EBin Lt (EV "k") (EV "nz")) (block [(SSet "n" (EBin Add (EBin Add (EBin Mul (EBin Mul (EV "k") (EV "nx")) (EV "ny")) (EBin Mul (EBin Sub (EV "ny") (EI 1)) (EV "nx"))) (EV "i")));
 (SFor "col" (EI 0) (EBin Lt (EV "col") (EV "nnz")) (SStore (EV "mvals") (EBin Add (EBin Add (EBin Mul (EBin Mul (EV "n") (EV "nFields")) (EV "nnz")) (EBin Mul (EV "d") (EV "nnz"))) (EV "col")) (EI 0)));
 (SStore (EV "mvals") (EBin Add (EBin Add (EBin Add (EBin Mul (EBin Mul (EV "n") (EV "nFields")) (EV "nnz")) (EBin Mul (EV "d") (EV "nnz"))) (EBin Mul (EI 13) (EV "nFields"))) (EV "d")) (EI 1))]))));
 (SFor "d" (EI 0) (EBin Lt (EV "d") (EV "nFields")) (SFor "j" (EI 0) (EBin Lt (EV "j") (EV "ny")) (SFor "k" (EI 0) (EBin Lt (EV "k") (EV "nz")) (block [(SSet "n" (EBin Add (EBin Add (EBin Mul (EBin Mul (EV "k") (EV "nx")) (EV "ny")) (EBin Mul (EV "j") (EV "nx"))) (EI 0)));
 (SFor "col" (EI 0) (EBin Lt (EV "col") (EV "nnz")) (SStore (EV "mvals") (EBin Add (EBin Add (EBin Mul (EBin Mul (EV "n") (EV "nFields")) (EV "nnz")) (EBin Mul (EV "d") (EV "nnz"))) (EV "col")) (EI 0)));
 (SStore (EV "mvals") (EBin Add (EBin Add (EBin Add (EBin Mul (EBin Mul (EV "n") (EV "nFields")) (EV "nnz")) (EBin Mul (EV "d") (EV "nnz"))) (EBin Mul (EI 13) (EV "nFields"))) (EV "d")) (EI 1))]))));
 (SFor "d" (EI 0) (EBin Lt (EV "d") (EV "nFields")) (SFor "j" (EI 0) (EBin Lt (EV "j") (EV "ny")) (SFor "k" (EI 0) (EBin Lt (EV "k") (EV "nz")) (block [(SSet "n" (EBin Add (EBin Add (EBin Mul (EBin Mul (EV "k") (EV "nx")) (EV "ny")) (EBin Mul (EV "j") (EV "nx"))) (EBin Sub (EV "nx") (EI 1))));
 (SFor "col" (EI 0) (EBin Lt (EV "col") (EV "nnz")) (SStore (EV "mvals") (EBin Add (EBin Add (EBin Mul (EBin Mul (EV "n") (EV "nFields")) (EV "nnz")) (EBin Mul (EV "d") (EV "nnz"))) (EV "col")) (EI 0)));
 (SStore (EV "mvals") (EBin Add (EBin Add (EBin Add (EBin Mul (EBin Mul (EV "n") (EV "nFields")) (EV "nnz")) (EBin Mul (EV "d") (EV "nnz"))) (EBin Mul (EI 13) (EV "nFields"))) (EV "d")) (EI 1))]))));
 (SIf (EBin Gt (EV "nz") (EI 2)) (SFor "d1" (EI 0) (EBin Lt (EV "d1") (EV "nFields")) (SFor "i" (EI 1) (EBin Lt (EV "i") (EBin Sub (EV "nx") (EI 1))) (SFor "j" (EI 1) (EBin Lt (EV "j") (EBin Sub (EV "ny") (EI 1))) (block [(SSet "n" (EBin Add (EBin Add (EBin Mul (EBin Mul (EI 1) (EV "nx")) (EV "ny")) (EBin Mul (EV "j") (EV "nx"))) (EV "i")));
 (SFor "l" (EI 0) (EBin Lt (EV "l") (EI 9)) (SFor "d2" (EI 0) (EBin Lt (EV "d2") (EV "nFields")) (SStore (EV "mvals") (EBin Add (EBin Add (EBin Add (EBin Mul (EBin Mul (EV "n") (EV "nFields")) (EV "nnz")) (EBin Mul (EV "d1") (EV "nnz"))) (EBin Mul (EV "l") (EV "nFields"))) (EV "d2")) (EI 0))))])))) SSkip);
 (SIf (EBin Gt (EV "nz") (EI 2)) (SFor "d1" (EI 0) (EBin Lt (EV "d1") (EV "nFields")) (SFor "i" (EI 1) (EBin Lt (EV "i") (EBin Sub (EV "nx") (EI 1))) (SFor "j" (EI 1) (EBin Lt (EV "j") (EBin Sub (EV "ny") (EI 1))) (block [(SSet "n" (EBin Add (EBin Add (EBin Mul (EBin Mul (EBin Sub (EV "nz") (EI 2)) (EV "nx")) (EV "ny")) (EBin Mul (EV "j") (EV "nx"))) (EV "i")));
 (SFor "l" (EI 18) (EBin Lt (EV "l") (EI 27)) (SFor "d2" (EI 0) (EBin Lt (EV "d2") (EV "nFields")) (SStore (EV "mvals") (EBin Add (EBin Add (EBin Add (EBin Mul (EBin Mul (EV "n") (EV "nFields")) (EV "nnz")) (EBin Mul (EV "d1") (EV "nnz"))) (EBin Mul (EV "l") (EV "nFields"))) (EV "d2")) (EI 0))))])))) SSkip);
 (SIf (EBin Gt (EV "ny") (EI 2)) (block [(SArr "tmp" [(EI 0); (EI 1); (EI 2); (EI 9); (EI 10); (EI 11); (EI 18); (EI 19); (EI 20)]);
 (SFor "d1" (EI 0) (EBin Lt (EV "d1") (EV "nFields")) (SFor "i" (EI 1) (EBin Lt (EV "i") (EBin Sub (EV "nx") (EI 1))) (SFor "k" (EI 1) (EBin Lt (EV "k") (EBin Sub (EV "nz") (EI 1))) (block [(SSet "n" (EBin Add (EBin Add (EBin Mul (EBin Mul (EV "k") (EV "nx")) (EV "ny")) (EBin Mul (EI 1) (EV "nx"))) (EV "i")));
 (SFor "l_pos" (EI 0) (EBin Lt (EV "l_pos") (EI 9)) (block [(SSet "l" (EIdx (EV "tmp") (EV "l_pos")));
 (SFor "d2" (EI 0) (EBin Lt (EV "d2") (EV "nFields")) (SStore (EV "mvals") (EBin Add (EBin Add (EBin Add (EBin Mul (EBin Mul (EV "n") (EV "nFields")) (EV "nnz")) (EBin Mul (EV "d1") (EV "nnz"))) (EBin Mul (EV "l") (EV "nFields"))) (EV "d2")) (EI 0)))]))]))))]) SSkip);
 (block [(SArr "tmp" [(EI 6); (EI 7); (EI 8); (EI 15); (EI 16); (EI 17); (EI 24); (EI 25); (EI 26)]);
 (SFor "d1" (EI 0) (EBin Lt (EV "d1") (EV "nFields")) (SFor "i" (EI 1) (EBin Lt (EV "i") (EBin Sub (EV "nx") (EI 1))) (SFor "k" (EI 1) (EBin Lt (EV "k") (EBin Sub (EV "nz") (EI 1))) (block [(SSet "n" (EBin Add (EBin Add (EBin Mul (EBin Mul (EV "k") (EV "nx")) (EV "ny")) (EBin Mul (EBin Sub (EV "ny") (EI 2)) (EV "nx"))) (EV "i")));
 (SFor "l_pos" (EI 0) (EBin Lt (EV "l_pos") (EI 9)) (block [(SSet "l" (EIdx (EV "tmp") (EV "l_pos")));
 (SFor "d2" (EI 0) (EBin Lt (EV "d2") (EV "nFields")) (SStore (EV "mvals") (EBin Add (EBin Add (EBin Add (EBin Mul (EBin Mul (EV "n") (EV "nFields")) (EV "nnz")) (EBin Mul (EV "d1") (EV "nnz"))) (EBin Mul (EV "l") (EV "nFields"))) (EV "d2")) (EI 0)))]))]))))]);
 (SIf (EBin Gt (EV "nx") (EI 2)) (block [(SArr "tmp" [(EI 0); (EI 3); (EI 6); (EI 9); (EI 12); (EI 15); (EI 18); (EI 21); (EI 24)]);
 (SFor "d1" (EI 0) (EBin Lt (EV "d1") (EV "nFields")) (SFor "j" (EI 1) (EBin Lt (EV "j") (EBin Sub (EV "ny") (EI 1))) (SFor "k" (EI 1) (EBin Lt (EV "k") (EBin Sub (EV "nz") (EI 1))) (block [(SSet "n" (EBin Add (EBin Add (EBin Mul (EBin Mul (EV "k") (EV "nx")) (EV "ny")) (EBin Mul (EV "j") (EV "nx"))) (EI 1)));
 (SFor "l_pos" (EI 0) (EBin Lt (EV "l_pos") (EI 9)) (block [(SSet "l" (EIdx (EV "tmp") (EV "l_pos")));
 (SFor "d2" (EI 0) (EBin Lt (EV "d2") (EV "nFields")) (SStore (EV "mvals") (EBin Add (EBin Add (EBin Add (EBin Mul (EBin Mul (EV "n") (EV "nFields")) (EV "nnz")) (EBin Mul (EV "d1") (EV "nnz"))) (EBin Mul (EV "l") (EV "nFields"))) (EV "d2")) (EI 0)))]))]))))]) SSkip);
 (SIf (EBin Gt (EV "nx") (EI 2)) (block [(SArr "tmp" [(EI 2); (EI 5); (EI 8); (EI 11); (EI 14); (EI 17); (EI 20); (EI 23); (EI 26)]);
 (SFor "d1" (EI 0) (EBin Lt (EV "d1") (EV "nFields")) (SFor "j" (EI 1) (EBin Lt (EV "j") (EBin Sub (EV "ny") (EI 1))) (SFor "k" (EI 1) (EBin Lt (EV "k") (EBin Sub (EV "nz") (EI 1))) (block [(SSet "n" (EBin Add (EBin Add (EBin Mul (EBin Mul (EV "k") (EV "nx")) (EV "ny")) (EBin Mul (EV "j") (EV "nx"))) (EBin Sub (EV "nx") (EI 2))));
 (SFor "l_pos" (EI 0) (EBin Lt (EV "l_pos") (EI 9)) (block [(SSet "l" (EIdx (EV "tmp") (EV "l_pos")));
 (SFor "d2" (EI 0) (EBin Lt (EV "d2") (EV "nFields")) (SStore (EV "mvals") (EBin Add (EBin Add (EBin Add (EBin Mul (EBin Mul (EV "n") (EV "nFields")) (EV "nnz")) (EBin Mul (EV "d1") (EV "nnz"))) (EBin Mul (EV "l") (EV "nFields"))) (EV "d2")) (EI 0)))]))]))))]) SSkip)]).

(** src/ell.cpp:707-863 *)
Definition ast_ell_init_2D : fdef := mkFun ["m"; "nFields"; "nx"; "ny"]
 (block [(SSet "nn" (EBin Mul (EV "nx") (EV "ny")));
 (SSet "nnz" (EBin Mul (EI 9) (EV "nFields")));
 (SSet "nrow" (EBin Mul (EV "nn") (EV "nFields")));
 (SFld (EV "m") "nnz" (EV "nnz"));
 (SFld (EV "m") "nrow" (EV "nrow"));
 (SFld (EV "m") "ncol" (EV "nrow"));
 (SMalloc "new_cols" TInt (EBin Mul (EV "nnz") (EV "nrow")));
 (SFld (EV "m") "cols" (EV "new_cols"));
 (SMalloc "new_vals" TDbl (EBin Mul (EV "nnz") (EV "nrow")));
 (SFld (EV "m") "vals" (EV "new_vals"));
 (SFor "i" (EI 0) (EBin Lt (EV "i") (EV "nn")) (block [(SSet "mcols" (EAdr (EFld (EV "m") "cols") (EBin Mul (EBin Mul (EV "i") (EV "nFields")) (EV "nnz"))));
 (SIf (EBin Eq (EV "i") (EI 0)) (SFor "d1" (EI 0) (EBin Lt (EV "d1") (EV "nFields")) (SFor "d2" (EI 0) (EBin Lt (EV "d2") (EV "nFields")) (block [(SStore (EV "mcols") (EBin Add (EBin Add (EBin Mul (EI 0) (EV "nFields")) (EBin Mul (EV "nnz") (EV "d1"))) (EV "d2")) (EI 0));
 (SStore (EV "mcols") (EBin Add (EBin Add (EBin Mul (EI 1) (EV "nFields")) (EBin Mul (EV "nnz") (EV "d1"))) (EV "d2")) (EI 0));
 (SStore (EV "mcols") (EBin Add (EBin Add (EBin Mul (EI 2) (EV "nFields")) (EBin Mul (EV "nnz") (EV "d1"))) (EV "d2")) (EI 0));
 (SStore (EV "mcols") (EBin Add (EBin Add (EBin Mul (EI 3) (EV "nFields")) (EBin Mul (EV "nnz") (EV "d1"))) (EV "d2")) (EI 0));
 (SStore (EV "mcols") (EBin Add (EBin Add (EBin Mul (EI 4) (EV "nFields")) (EBin Mul (EV "nnz") (EV "d1"))) (EV "d2")) (EBin Add (EBin Mul (EV "i") (EV "nFields")) (EV "d2")));
 (SStore (EV "mcols") (EBin Add (EBin Add (EBin Mul (EI 5) (EV "nFields")) (EBin Mul (EV "nnz") (EV "d1"))) (EV "d2")) (EBin Add (EBin Mul (EBin Add (EV "i") (EI 1)) (EV "nFields")) (EV "d2")));
 (SStore (EV "mcols") (EBin Add (EBin Add (EBin Mul (EI 6) (EV "nFields")) (EBin Mul (EV "nnz") (EV "d1"))) (EV "d2")) (EI 0));
 (SStore (EV "mcols") (EBin Add (EBin Add (EBin Mul (EI 7) (EV "nFields")) (EBin Mul (EV "nnz") (EV "d1"))) (EV "d2")) (EBin Add (EBin Mul (EBin Add (EV "i") (EV "nx")) (EV "nFields")) (EV "d2")));
 (SStore (EV "mcols") (EBin Add (EBin Add (EBin Mul (EI 8) (EV "nFields")) (EBin Mul (EV "nnz") (EV "d1"))) (EV "d2")) (EBin Add (EBin Mul (EBin Add (EBin Add (EV "i") (EV "nx")) (EI 1)) (EV "nFields")) (EV "d2")))]))) (SIf (EBin Eq (EV "i") (EBin Sub (EV "nx") (EI 1))) (SFor "d1" (EI 0) (EBin Lt (EV "d1") (EV "nFields")) (SFor "d2" (EI 0) (EBin Lt (EV "d2") (EV "nFields")) (block [(SStore (EV "mcols") (EBin Add (EBin Add (EBin Mul (EI 0) (EV "nFields")) (EBin Mul (EV "nnz") (EV "d1"))) (EV "d2")) (EI 0));
 (SStore (EV "mcols") (EBin Add (EBin Add (EBin Mul (EI 1) (EV "nFields")) (EBin Mul (EV "nnz") (EV "d1"))) (EV "d2")) (EI 0));
 (SStore (EV "mcols") (EBin Add (EBin Add (EBin Mul (EI 2) (EV "nFields")) (EBin Mul (EV "nnz") (EV "d1"))) (EV "d2")) (EI 0));
 (SStore (EV "mcols") (EBin Add (EBin Add (EBin Mul (EI 3) (EV "nFields")) (EBin Mul (EV "nnz") (EV "d1"))) (EV "d2")) (EBin Add (EBin Mul (EBin Sub (EV "i") (EI 1)) (EV "nFields")) (EV "d2")));
 (SStore (EV "mcols") (EBin Add (EBin Add (EBin Mul (EI 4) (EV "nFields")) (EBin Mul (EV "nnz") (EV "d1"))) (EV "d2")) (EBin Add (EBin Mul (EV "i") (EV "nFields")) (EV "d2")));
 (SStore (EV "mcols") (EBin Add (EBin Add (EBin Mul (EI 5) (EV "nFields")) (EBin Mul (EV "nnz") (EV "d1"))) (EV "d2")) (EI 0));
 (SStore (EV "mcols") (EBin Add (EBin Add (EBin Mul (EI 6) (EV "nFields")) (EBin Mul (EV "nnz") (EV "d1"))) (EV "d2")) (EBin Add (EBin Mul (EBin Sub (EBin Add (EV "i") (EV "nx")) (EI 1)) (EV "nFields")) (EV "d2")));
 (SStore (EV "mcols") (EBin Add (EBin Add (EBin Mul (EI 7) (EV "nFields")) (EBin Mul (EV "nnz") (EV "d1"))) (EV "d2")) (EBin Add (EBin Mul (EBin Add (EV "i") (EV "nx")) (EV "nFields")) (EV "d2")));
 (SStore (EV "mcols") (EBin Add (EBin Add (EBin Mul (EI 8) (EV "nFields")) (EBin Mul (EV "nnz") (EV "d1"))) (EV "d2")) (EI 0))]))) (SIf (EBin Eq (EV "i") (EBin Sub (EBin Mul (EV "nx") (EV "ny")) (EI 1))) (SFor "d1" (EI 0) (EBin Lt (EV "d1") (EV "nFields")) (SFor "d2" (EI 0) (EBin Lt (EV "d2") (EV "nFields")) (block [(SStore (EV "mcols") (EBin Add (EBin Add (EBin Mul (EI 0) (EV "nFields")) (EBin Mul (EV "nnz") (EV "d1"))) (EV "d2")) (EBin Add (EBin Mul (EBin Sub (EBin Sub (EV "i") (EV "nx")) (EI 1)) (EV "nFields")) (EV "d2")));
 (SStore (EV "mcols") (EBin Add (EBin Add (EBin Mul (EI 1) (EV "nFields")) (EBin Mul (EV "nnz") (EV "d1"))) (EV "d2")) (EBin Add (EBin Mul (EBin Sub (EV "i") (EV "nx")) (EV "nFields")) (EV "d2")));
 (SStore (EV "mcols") (EBin Add (EBin Add (EBin Mul (EI 2) (EV "nFields")) (EBin Mul (EV "nnz") (EV "d1"))) (EV "d2")) (EI 0));
 (SStore (EV "mcols") (EBin Add (EBin Add (EBin Mul (EI 3) (EV "nFields")) (EBin Mul (EV "nnz") (EV "d1"))) (EV "d2")) (EBin Add (EBin Mul (EBin Sub (EV "i") (EI 1)) (EV "nFields")) (EV "d2")));
 (SStore (EV "mcols") (EBin Add (EBin Add (EBin Mul (EI 4) (EV "nFields")) (EBin Mul (EV "nnz") (EV "d1"))) (EV "d2")) (EBin Add (EBin Mul (EV "i") (EV "nFields")) (EV "d2")));
 (SStore (EV "mcols") (EBin Add (EBin Add (EBin Mul (EI 5) (EV "nFields")) (EBin Mul (EV "nnz") (EV "d1"))) (EV "d2")) (EI 0));
 (SStore (EV "mcols") (EBin Add (EBin Add (EBin Mul (EI 6) (EV "nFields")) (EBin Mul (EV "nnz") (EV "d1"))) (EV "d2")) (EI 0));
 (SStore (EV "mcols") (EBin Add (EBin Add (EBin Mul (EI 7) (EV "nFields")) (EBin Mul (EV "nnz") (EV "d1"))) (EV "d2")) (EI 0));
 (SStore (EV "mcols") (EBin Add (EBin Add (EBin Mul (EI 8) (EV "nFields")) (EBin Mul (EV "nnz") (EV "d1"))) (EV "d2")) (EI 0))]))) (SIf (EBin Eq (EV "i") (EBin Mul (EBin Sub (EV "ny") (EI 1)) (EV "nx"))) (SFor "d1" (EI 0) (EBin Lt (EV "d1") (EV "nFields")) (SFor "d2" (EI 0) (EBin Lt (EV "d2") (EV "nFields")) (block [(SStore (EV "mcols") (EBin Add (EBin Add (EBin Mul (EI 0) (EV "nFields")) (EBin Mul (EV "nnz") (EV "d1"))) (EV "d2")) (EI 0));
 (SStore (EV "mcols") (EBin Add (EBin Add (EBin Mul (EI 1) (EV "nFields")) (EBin Mul (EV "nnz") (EV "d1"))) (EV "d2")) (EBin Add (EBin Mul (EBin Sub (EV "i") (EV "nx")) (EV "nFields")) (EV "d2")));
 (SStore (EV "mcols") (EBin Add (EBin Add (EBin Mul (EI 2) (EV "nFields")) (EBin Mul (EV "nnz") (EV "d1"))) (EV "d2")) (EBin Add (EBin Mul (EBin Add (EBin Sub (EV "i") (EV "nx")) (EI 1)) (EV "nFields")) (EV "d2")));
 (SStore (EV "mcols") (EBin Add (EBin Add (EBin Mul (EI 3) (EV "nFields")) (EBin Mul (EV "nnz") (EV "d1"))) (EV "d2")) (EI 0));
 (SStore (EV "mcols") (EBin Add (EBin Add (EBin Mul (EI 4) (EV "nFields")) (EBin Mul (EV "nnz") (EV "d1"))) (EV "d2")) (EBin Add (EBin Mul (EV "i") (EV "nFields")) (EV "d2")));
 (SStore (EV "mcols") (EBin Add (EBin Add (EBin Mul (EI 5) (EV "nFields")) (EBin Mul (EV "nnz") (EV "d1"))) (EV "d2")) (EBin Add (EBin Mul (EBin Add (EV "i") (EI 1)) (EV "nFields")) (EV "d2")));
 (SStore (EV "mcols") (EBin Add (EBin Add (EBin Mul (EI 6) (EV "nFields")) (EBin Mul (EV "nnz") (EV "d1"))) (EV "d2")) (EI 0));
 (SStore (EV "mcols") (EBin Add (EBin Add (EBin Mul (EI 7) (EV "nFields")) (EBin Mul (EV "nnz") (EV "d1"))) (EV "d2")) (EI 0));
 (SStore (EV "mcols") (EBin Add (EBin Add (EBin Mul (EI 8) (EV "nFields")) (EBin Mul (EV "nnz") (EV "d1"))) (EV "d2")) (EI 0))]))) (SIf (EBin Lt (EV "i") (EV "nx")) (SFor "d1" (EI 0) (EBin Lt (EV "d1") (EV "nFields")) (SFor "d2" (EI 0) (EBin Lt (EV "d2") (EV "nFields")) (block [(SStore (EV "mcols") (EBin Add (EBin Add (EBin Mul (EI 0) (EV "nFields")) (EBin Mul (EV "nnz") (EV "d1"))) (EV "d2")) (EI 0));
 (SStore (EV "mcols") (EBin Add (EBin Add (EBin Mul (EI 1) (EV "nFields")) (EBin Mul (EV "nnz") (EV "d1"))) (EV "d2")) (EI 0));
 (SStore (EV "mcols") (EBin Add (EBin Add (EBin Mul (EI 2) (EV "nFields")) (EBin Mul (EV "nnz") (EV "d1"))) (EV "d2")) (EI 0));
 (SStore (EV "mcols") (EBin Add (EBin Add (EBin Mul (EI 3) (EV "nFields")) (EBin Mul (EV "nnz") (EV "d1"))) (EV "d2")) (EBin Add (EBin Mul (EBin Sub (EV "i") (EI 1)) (EV "nFields")) (EV "d2")));
 (SStore (EV "mcols") (EBin Add (EBin Add (EBin Mul (EI 4) (EV "nFields")) (EBin Mul (EV "nnz") (EV "d1"))) (EV "d2")) (EBin Add (EBin Mul (EV "i") (EV "nFields")) (EV "d2")));
 (SStore (EV "mcols") (EBin Add (EBin Add (EBin Mul (EI 5) (EV "nFields")) (EBin Mul (EV "nnz") (EV "d1"))) (EV "d2")) (EBin Add (EBin Mul (EBin Add (EV "i") (EI 1)) (EV "nFields")) (EV "d2")));
 (SStore (EV "mcols") (EBin Add (EBin Add (EBin Mul (EI 6) (EV "nFields")) (EBin Mul (EV "nnz") (EV "d1"))) (EV "d2")) (EBin Add (EBin Mul (EBin Sub (EBin Add (EV "i") (EV "nx")) (EI 1)) (EV "nFields")) (EV "d2")));
 (SStore (EV "mcols") (EBin Add (EBin Add (EBin Mul (EI 7) (EV "nFields")) (EBin Mul (EV "nnz") (EV "d1"))) (EV "d2")) (EBin Add (EBin Mul (EBin Add (EV "i") (EV "nx")) (EV "nFields")) (EV "d2")));
 (SStore (EV "mcols") (EBin Add (EBin Add (EBin Mul (EI 8) (EV "nFields")) (EBin Mul (EV "nnz") (EV "d1"))) (EV "d2")) (EBin Add (EBin Mul (EBin Add (EBin Add (EV "i") (EV "nx")) (EI 1)) (EV "nFields")) (EV "d2")))]))) (SIf (EBin Gt (EV "i") (EBin Mul (EBin Sub (EV "ny") (EI 1)) (EV "nx"))) (SFor "d1" (EI 0) (EBin Lt (EV "d1") (EV "nFields")) (SFor "d2" (EI 0) (EBin Lt (EV "d2") (EV "nFields")) (block [(SStore (EV "mcols") (EBin Add (EBin Add (EBin Mul (EI 0) (EV "nFields")) (EBin Mul (EV "nnz") (EV "d1"))) (EV "d2")) (EBin Add (EBin Mul (EBin Sub (EBin Sub (EV "i") (EV "nx")) (EI 1)) (EV "nFields")) (EV "d2")));
 (SStore (EV "mcols") (EBin Add (EBin Add (EBin Mul (EI 1) (EV "nFields")) (EBin Mul (EV "nnz") (EV "d1"))) (EV "d2")) (EBin Add (EBin Mul (EBin Sub (EV "i") (EV "nx")) (EV "nFields")) (EV "d2")));
 (SStore (EV "mcols") (EBin Add (EBin Add (EBin Mul (EI 2) (EV "nFields")) (EBin Mul (EV "nnz") (EV "d1"))) (EV "d2")) (EBin Add (EBin Mul (EBin Add (EBin Sub (EV "i") (EV "nx")) (EI 1)) (EV "nFields")) (EV "d2")));
 (SStore (EV "mcols") (EBin Add (EBin Add (EBin Mul (EI 3) (EV "nFields")) (EBin Mul (EV "nnz") (EV "d1"))) (EV "d2")) (EBin Add (EBin Mul (EBin Sub (EV "i") (EI 1)) (EV "nFields")) (EV "d2")));
 (SStore (EV "mcols") (EBin Add (EBin Add (EBin Mul (EI 4) (EV "nFields")) (EBin Mul (EV "nnz") (EV "d1"))) (EV "d2")) (EBin Add (EBin Mul (EV "i") (EV "nFields")) (EV "d2")));
 (SStore (EV "mcols") (EBin Add (EBin Add (EBin Mul (EI 5) (EV "nFields")) (EBin Mul (EV "nnz") (EV "d1"))) (EV "d2")) (EBin Add (EBin Mul (EBin Add (EV "i") (EI 1)) (EV "nFields")) (EV "d2")));
 (SStore (EV "mcols") (EBin Add (EBin Add (EBin Mul (EI 6) (EV "nFields")) (EBin Mul (EV "nnz") (EV "d1"))) (EV "d2")) (EI 0));
 (SStore (EV "mcols") (EBin Add (EBin Add (EBin Mul (EI 7) (EV "nFields")) (EBin Mul (EV "nnz") (EV "d1"))) (EV "d2")) (EI 0));
 (SStore (EV "mcols") (EBin Add (EBin Add (EBin Mul (EI 8) (EV "nFields")) (EBin Mul (EV "nnz") (EV "d1"))) (EV "d2")) (EI 0))]))) (SIf (EBin Eq (EBin Mod (EV "i") (EV "nx")) (EI 0)) (SFor "d1" (EI 0) (EBin Lt (EV "d1") (EV "nFields")) (SFor "d2" (EI 0) (EBin Lt (EV "d2") (EV "nFields")) (block [(SStore (EV "mcols") (EBin Add (EBin Add (EBin Mul (EI 0) (EV "nFields")) (EBin Mul (EV "nnz") (EV "d1"))) (EV "d2")) (EI 0));
 (SStore (EV "mcols") (EBin Add (EBin Add (EBin Mul (EI 1) (EV "nFields")) (EBin Mul (EV "nnz") (EV "d1"))) (EV "d2")) (EBin Add (EBin Mul (EBin Sub (EV "i") (EV "nx")) (EV "nFields")) (EV "d2")));
 (SStore (EV "mcols") (EBin Add (EBin Add (EBin Mul (EI 2) (EV "nFields")) (EBin Mul (EV "nnz") (EV "d1"))) (EV "d2")) (EBin Add (EBin Mul (EBin Add (EBin Sub (EV "i") (EV "nx")) (EI 1)) (EV "nFields")) (EV "d2")));
 (SStore (EV "mcols") (EBin Add (EBin Add (EBin Mul (EI 3) (EV "nFields")) (EBin Mul (EV "nnz") (EV "d1"))) (EV "d2")) (EI 0));
 (SStore (EV "mcols") (EBin Add (EBin Add (EBin Mul (EI 4) (EV "nFields")) (EBin Mul (EV "nnz") (EV "d1"))) (EV "d2")) (EBin Add (EBin Mul (EV "i") (EV "nFields")) (EV "d2")));
 (SStore (EV "mcols") (EBin Add (EBin Add (EBin Mul (EI 5) (EV "nFields")) (EBin Mul (EV "nnz") (EV "d1"))) (EV "d2")) (EBin Add (EBin Mul (EBin Add (EV "i") (EI 1)) (EV "nFields")) (EV "d2")));
 (SStore (EV "mcols") (EBin Add (EBin Add (EBin Mul (EI 6) (EV "nFields")) (EBin Mul (EV "nnz") (EV "d1"))) (EV "d2")) (EI 0));
 (SStore (EV "mcols") (EBin Add (EBin Add (EBin Mul (EI 7) (EV "nFields")) (EBin Mul (EV "nnz") (EV "d1"))) (EV "d2")) (EBin Add (EBin Mul (EBin Add (EV "i") (EV "nx")) (EV "nFields")) (EV "d2")));
 (SStore (EV "mcols") (EBin Add (EBin Add (EBin Mul (EI 8) (EV "nFields")) (EBin Mul (EV "nnz") (EV "d1"))) (EV "d2")) (EBin Add (EBin Mul (EBin Add (EBin Add (EV "i") (EV "nx")) (EI 1)) (EV "nFields")) (EV "d2")))]))) (SIf (EBin Eq (EBin Mod (EBin Add (EV "i") (EI 1)) (EV "nx")) (EI 0)) (SFor "d1" (EI 0) (EBin Lt (EV "d1") (EV "nFields")) (SFor "d2" (EI 0) (EBin Lt (EV "d2") (EV "nFields")) (block [(SStore (EV "mcols") (EBin Add (EBin Add (EBin Mul (EI 0) (EV "nFields")) (EBin Mul (EV "nnz") (EV "d1"))) (EV "d2")) (EBin Add (EBin Mul (EBin Sub (EBin Sub (EV "i") (EV "nx")) (EI 1)) (EV "nFields")) (EV "d2")));
 (SStore (EV "mcols") (EBin Add (EBin Add (EBin Mul (EI 1) (EV "nFields")) (EBin Mul (EV "nnz") (EV "d1"))) (EV "d2")) (EBin Add (EBin Mul (EBin Sub (EV "i") (EV "nx")) (EV "nFields")) (EV "d2")));
 (SStore (EV "mcols") (EBin Add (EBin Add (EBin Mul (EI 2) (EV "nFields")) (EBin Mul (EV "nnz") (EV "d1"))) (EV "d2")) (EI 0));
 (SStore (EV "mcols") (EBin Add (EBin Add (EBin Mul (EI 3) (EV "nFields")) (EBin Mul (EV "nnz") (EV "d1"))) (EV "d2")) (EBin Add (EBin Mul (EBin Sub (EV "i") (EI 1)) (EV "nFields")) (EV "d2")));
 (SStore (EV "mcols") (EBin Add (EBin Add (EBin Mul (EI 4) (EV "nFields")) (EBin Mul (EV "nnz") (EV "d1"))) (EV "d2")) (EBin Add (EBin Mul (EV "i") (EV "nFields")) (EV "d2")));
 (SStore (EV "mcols") (EBin Add (EBin Add (EBin Mul (EI 5) (EV "nFields")) (EBin Mul (EV "nnz") (EV "d1"))) (EV "d2")) (EI 0));
 (SStore (EV "mcols") (EBin Add (EBin Add (EBin Mul (EI 6) (EV "nFields")) (EBin Mul (EV "nnz") (EV "d1"))) (EV "d2")) (EBin Add (EBin Mul (EBin Sub (EBin Add (EV "i") (EV "nx")) (EI 1)) (EV "nFields")) (EV "d2")));
 (SStore (EV "mcols") (EBin Add (EBin Add (EBin Mul (EI 7) (EV "nFields")) (EBin Mul (EV "nnz") (EV "d1"))) (EV "d2")) (EBin Add (EBin Mul (EV "i") (EV "nFields")) (EV "d2")));
 (SStore (EV "mcols") (EBin Add (EBin Add (EBin Mul (EI 8) (EV "nFields")) (EBin Mul (EV "nnz") (EV "d1"))) (EV "d2")) (EI 0))]))) (SFor "d1" (EI 0) (EBin Lt (EV "d1") (EV "nFields")) (SFor "d2" (EI 0) (EBin Lt (EV "d2") (EV "nFields")) (block [(SStore (EV "mcols") (EBin Add (EBin Add (EBin Mul (EI 0) (EV "nFields")) (EBin Mul (EV "nnz") (EV "d1"))) (EV "d2")) (EBin Add (EBin Mul (EBin Sub (EBin Sub (EV "i") (EV "nx")) (EI 1)) (EV "nFields")) (EV "d2")));
 (SStore (EV "mcols") (EBin Add (EBin Add (EBin Mul (EI 1) (EV "nFields")) (EBin Mul (EV "nnz") (EV "d1"))) (EV "d2")) (EBin Add (EBin Mul (EBin Sub (EV "i") (EV "nx")) (EV "nFields")) (EV "d2")));
 (SStore (EV "mcols") (EBin Add (EBin Add (EBin Mul (EI 2) (EV "nFields")) (EBin Mul (EV "nnz") (EV "d1"))) (EV "d2")) (EBin Add (EBin Mul (EBin Add (EBin Sub (EV "i") (EV "nx")) (EI 1)) (EV "nFields")) (EV "d2")));
 (SStore (EV "mcols") (EBin Add (EBin Add (EBin Mul (EI 3) (EV "nFields")) (EBin Mul (EV "nnz") (EV "d1"))) (EV "d2")) (EBin Add (EBin Mul (EBin Sub (EV "i") (EI 1)) (EV "nFields")) (EV "d2")));
 (SStore (EV "mcols") (EBin Add (EBin Add (EBin Mul (EI 4) (EV "nFields")) (EBin Mul (EV "nnz") (EV "d1"))) (EV "d2")) (EBin Add (EBin Mul (EV "i") (EV "nFields")) (EV "d2")));
 (SStore (EV "mcols") (EBin Add (EBin Add (EBin Mul (EI 5) (EV "nFields")) (EBin Mul (EV "nnz") (EV "d1"))) (EV "d2")) (EBin Add (EBin Mul (EBin Add (EV "i") (EI 1)) (EV "nFields")) (EV "d2")));
 (SStore (EV "mcols") (EBin Add (EBin Add (EBin Mul (EI 6) (EV "nFields")) (EBin Mul (EV "nnz") (EV "d1"))) (EV "d2")) (EBin Add (EBin Mul (EBin Sub (EBin Add (EV "i") (EV "nx")) (EI 1)) (EV "nFields")) (EV "d2")));
 (SStore (EV "mcols") (EBin Add (EBin Add (EBin Mul (EI 7) (EV "nFields")) (EBin Mul (EV "nnz") (EV "d1"))) (EV "d2")) (EBin Add (EBin Mul (EBin Add (EV "i") (EV "nx")) (EV "nFields")) (EV "d2")));
 (SStore (EV "mcols") (EBin Add (EBin Add (EBin Mul (EI 8) (EV "nFields")) (EBin Mul (EV "nnz") (EV "d1"))) (EV "d2")) (EBin Add (EBin Mul (EBin Add (EBin Add (EV "i") (EV "nx")) (EI 1)) (EV "nFields")) (EV "d2")))])))))))))))]))]).

(** src/ell.cpp:865-1876 *)
Definition ast_ell_init_3D : fdef := mkFun ["m"; "nFields"; "nx"; "ny"; "nz"]
 (block [(SSet "nn" (EBin Mul (EBin Mul (EV "nx") (EV "ny")) (EV "nz")));
 (SSet "nnz" (EBin Mul (EI 27) (EV "nFields")));
 (SSet "nrow" (EBin Mul (EV "nn") (EV "nFields")));
 (SSet "mcols" ENull);
 (SFld (EV "m") "nnz" (EV "nnz"));
 (SFld (EV "m") "nrow" (EV "nrow"));
 (SFld (EV "m") "ncol" (EV "nrow"));
 (SMalloc "new_cols" TInt (EBin Mul (EV "nnz") (EV "nrow")));
 (SFld (EV "m") "cols" (EV "new_cols"));
 (SMalloc "new_vals" TDbl (EBin Mul (EV "nnz") (EV "nrow")));
 (SFld (EV "m") "vals" (EV "new_vals"));
 (SSet "nn" (EBin Add (EBin Add (EBin Mul (EBin Mul (EI 0) (EV "nx")) (EV "ny")) (EBin Mul (EI 0) (EV "nx"))) (EI 0)));
 (SSet "mcols" (EAdr (EFld (EV "m") "cols") (EBin Mul (EBin Mul (EV "nn") (EV "nFields")) (EV "nnz"))));
 (SFor "d1" (EI 0) (EBin Lt (EV "d1") (EV "nFields")) (SFor "d2" (EI 0) (EBin Lt (EV "d2") (EV "nFields")) (block [(SStore (EV "mcols") (EBin Add (EBin Add (EBin Mul (EI 0) (EV "nFields")) (EBin Mul (EV "nnz") (EV "d1"))) (EV "d2")) (EI 0));
 (SStore (EV "mcols") (EBin Add (EBin Add (EBin Mul (EI 1) (EV "nFields")) (EBin Mul (EV "nnz") (EV "d1"))) (EV "d2")) (EI 0));
 (SStore (EV "mcols") (EBin Add (EBin Add (EBin Mul (EI 2) (EV "nFields")) (EBin Mul (EV "nnz") (EV "d1"))) (EV "d2")) (EI 0));
 (SStore (EV "mcols") (EBin Add (EBin Add (EBin Mul (EI 3) (EV "nFields")) (EBin Mul (EV "nnz") (EV "d1"))) (EV "d2")) (EI 0));
 (SStore (EV "mcols") (EBin Add (EBin Add (EBin Mul (EI 4) (EV "nFields")) (EBin Mul (EV "nnz") (EV "d1"))) (EV "d2")) (EI 0));
 (SStore (EV "mcols") (EBin Add (EBin Add (EBin Mul (EI 5) (EV "nFields")) (EBin Mul (EV "nnz") (EV "d1"))) (EV "d2")) (EI 0));
 (SStore (EV "mcols") (EBin Add (EBin Add (EBin Mul (EI 6) (EV "nFields")) (EBin Mul (EV "nnz") (EV "d1"))) (EV "d2")) (EI 0));
 (SStore (EV "mcols") (EBin Add (EBin Add (EBin Mul (EI 7) (EV "nFields")) (EBin Mul (EV "nnz") (EV "d1"))) (EV "d2")) (EI 0));
 (SStore (EV "mcols") (EBin Add (EBin Add (EBin Mul (EI 8) (EV "nFields")) (EBin Mul (EV "nnz") (EV "d1"))) (EV "d2")) (EI 0));
 (SStore (EV "mcols") (EBin Add (EBin Add (EBin Mul (EI 9) (EV "nFields")) (EBin Mul (EV "nnz") (EV "d1"))) (EV "d2")) (EI 0));
 (SStore (EV "mcols") (EBin Add (EBin Add (EBin Mul (EI 10) (EV "nFields")) (EBin Mul (EV "nnz") (EV "d1"))) (EV "d2")) (EI 0));
 (SStore (EV "mcols") (EBin Add (EBin Add (EBin Mul (EI 11) (EV "nFields")) (EBin Mul (EV "nnz") (EV "d1"))) (EV "d2")) (EI 0));
 (SStore (EV "mcols") (EBin Add (EBin Add (EBin Mul (EI 12) (EV "nFields")) (EBin Mul (EV "nnz") (EV "d1"))) (EV "d2")) (EI 0));
 (SStore (EV "mcols") (EBin Add (EBin Add (EBin Mul (EI 13) (EV "nFields")) (EBin Mul (EV "nnz") (EV "d1"))) (EV "d2")) (EBin Add (EBin Mul (EV "nn") (EV "nFields")) (EV "d2")));
 (SStore (EV "mcols") (EBin Add (EBin Add (EBin Mul (EI 14) (EV "nFields")) (EBin Mul (EV "nnz") (EV "d1"))) (EV "d2")) (EBin Add (EBin Mul (EBin Add (EV "nn") (EI 1)) (EV "nFields")) (EV "d2")));
 (SStore (EV "mcols") (EBin Add (EBin Add (EBin Mul (EI 15) (EV "nFields")) (EBin Mul (EV "nnz") (EV "d1"))) (EV "d2")) (EI 0));
 (SStore (EV "mcols") (EBin Add (EBin Add (EBin Mul (EI 16) (EV "nFields")) (EBin Mul (EV "nnz") (EV "d1"))) (EV "d2")) (EBin Add (EBin Mul (EBin Add (EV "nn") (EV "nx")) (EV "nFields")) (EV "d2")));
 (SStore (EV "mcols") (EBin Add (EBin Add (EBin Mul (EI 17) (EV "nFields")) (EBin Mul (EV "nnz") (EV "d1"))) (EV "d2")) (EBin Add (EBin Mul (EBin Add (EBin Add (EV "nn") (EV "nx")) (EI 1)) (EV "nFields")) (EV "d2")));
 (SStore (EV "mcols") (EBin Add (EBin Add (EBin Mul (EI 18) (EV "nFields")) (EBin Mul (EV "nnz") (EV "d1"))) (EV "d2")) (EI 0));
 (SStore (EV "mcols") (EBin Add (EBin Add (EBin Mul (EI 19) (EV "nFields")) (EBin Mul (EV "nnz") (EV "d1"))) (EV "d2")) (EI 0));
 (SStore (EV "mcols") (EBin Add (EBin Add (EBin Mul (EI 20) (EV "nFields")) (EBin Mul (EV "nnz") (EV "d1"))) (EV "d2")) (EI 0));
 (SStore (EV "mcols") (EBin Add (EBin Add (EBin Mul (EI 21) (EV "nFields")) (EBin Mul (EV "nnz") (EV "d1"))) (EV "d2")) (EI 0));
 (SStore (EV "mcols") (EBin Add (EBin Add (EBin Mul (EI 22) (EV "nFields")) (EBin Mul (EV "nnz") (EV "d1"))) (EV "d2")) (EBin Add (EBin Mul (EBin Add (EV "nn") (EBin Mul (EV "nx") (EV "ny"))) (EV "nFields")) (EV "d2")));
 (SStore (EV "mcols") (EBin Add (EBin Add (EBin Mul (EI 23) (EV "nFields")) (EBin Mul (EV "nnz") (EV "d1"))) (EV "d2")) (EBin Add (EBin Mul (EBin Add (EBin Add (EV "nn") (EBin Mul (EV "nx") (EV "ny"))) (EI 1)) (EV "nFields")) (EV "d2")));
 (SStore (EV "mcols") (EBin Add (EBin Add (EBin Mul (EI 24) (EV "nFields")) (EBin Mul (EV "nnz") (EV "d1"))) (EV "d2")) (EI 0));
 (SStore (EV "mcols") (EBin Add (EBin Add (EBin Mul (EI 25) (EV "nFields")) (EBin Mul (EV "nnz") (EV "d1"))) (EV "d2")) (EBin Add (EBin Mul (EBin Add (EBin Add (EV "nn") (EBin Mul (EV "nx") (EV "ny"))) (EV "nx")) (EV "nFields")) (EV "d2")));
 (SStore (EV "mcols") (EBin Add (EBin Add (EBin Mul (EI 26) (EV "nFields")) (EBin Mul (EV "nnz") (EV "d1"))) (EV "d2")) (EBin Add (EBin Mul (EBin Add (EBin Add (EBin Add (EV "nn") (EBin Mul (EV "nx") (EV "ny"))) (EV "nx")) (EI 1)) (EV "nFields")) (EV "d2")))])));
 (SSet "nn" (EBin Add (EBin Add (EBin Mul (EBin Mul (EI 0) (EV "nx")) (EV "ny")) (EBin Mul (EI 0) (EV "nx"))) (EBin Sub (EV "nx") (EI 1))));
 (SSet "mcols" (EAdr (EFld (EV "m") "cols") (EBin Mul (EBin Mul (EV "nn") (EV "nFields")) (EV "nnz"))));
 (SFor "d1" (EI 0) (EBin Lt (EV "d1") (EV "nFields")) (SFor "d2" (EI 0) (EBin Lt (EV "d2") (EV "nFields")) (block [(SStore (EV "mcols") (EBin Add (EBin Add (EBin Mul (EI 0) (EV "nFields")) (EBin Mul (EV "nnz") (EV "d1"))) (EV "d2")) (EI 0));
 (SStore (EV "mcols") (EBin Add (EBin Add (EBin Mul (EI 1) (EV "nFields")) (EBin Mul (EV "nnz") (EV "d1"))) (EV "d2")) (EI 0));
 (SStore (EV "mcols") (EBin Add (EBin Add (EBin Mul (EI 2) (EV "nFields")) (EBin Mul (EV "nnz") (EV "d1"))) (EV "d2")) (EI 0));
 (SStore (EV "mcols") (EBin Add (EBin Add (EBin Mul (EI 3) (EV "nFields")) (EBin Mul (EV "nnz") (EV "d1"))) (EV "d2")) (EI 0));
 (SStore (EV "mcols") (EBin Add (EBin Add (EBin Mul (EI 4) (EV "nFields")) (EBin Mul (EV "nnz") (EV "d1"))) (EV "d2")) (EI 0));
 (SStore (EV "mcols") (EBin Add (EBin Add (EBin Mul (EI 5) (EV "nFields")) (EBin Mul (EV "nnz") (EV "d1"))) (EV "d2")) (EI 0));
 (SStore (EV "mcols") (EBin Add (EBin Add (EBin Mul (EI 6) (EV "nFields")) (EBin Mul (EV "nnz") (EV "d1"))) (EV "d2")) (EI 0));
 (SStore (EV "mcols") (EBin Add (EBin Add (EBin Mul (EI 7) (EV "nFields")) (EBin Mul (EV "nnz") (EV "d1"))) (EV "d2")) (EI 0));
 (SStore (EV "mcols") (EBin Add (EBin Add (EBin Mul (EI 8) (EV "nFields")) (EBin Mul (EV "nnz") (EV "d1"))) (EV "d2")) (EI 0));
 (SStore (EV "mcols") (EBin Add (EBin Add (EBin Mul (EI 9) (EV "nFields")) (EBin Mul (EV "nnz") (EV "d1"))) (EV "d2")) (EI 0));
 (SStore (EV "mcols") (EBin Add (EBin Add (EBin Mul (EI 10) (EV "nFields")) (EBin Mul (EV "nnz") (EV "d1"))) (EV "d2")) (EI 0));
 (SStore (EV "mcols") (EBin Add (EBin Add (EBin Mul (EI 11) (EV "nFields")) (EBin Mul (EV "nnz") (EV "d1"))) (EV "d2")) (EI 0));
 (SStore (EV "mcols") (EBin Add (EBin Add (EBin Mul (EI 12) (EV "nFields")) (EBin Mul (EV "nnz") (EV "d1"))) (EV "d2")) (EBin Add (EBin Mul (EBin Sub (EV "nn") (EI 1)) (EV "nFields")) (EV "d2")));
 (SStore (EV "mcols") (EBin Add (EBin Add (EBin Mul (EI 13) (EV "nFields")) (EBin Mul (EV "nnz") (EV "d1"))) (EV "d2")) (EBin Add (EBin Mul (EV "nn") (EV "nFields")) (EV "d2")));
 (SStore (EV "mcols") (EBin Add (EBin Add (EBin Mul (EI 14) (EV "nFields")) (EBin Mul (EV "nnz") (EV "d1"))) (EV "d2")) (EI 0));
 (SStore (EV "mcols") (EBin Add (EBin Add (EBin Mul (EI 15) (EV "nFields")) (EBin Mul (EV "nnz") (EV "d1"))) (EV "d2")) (EBin Add (EBin Mul (EBin Sub (EBin Add (EV "nn") (EV "nx")) (EI 1)) (EV "nFields")) (EV "d2")));
 (SStore (EV "mcols") (EBin Add (EBin Add (EBin Mul (EI 16) (EV "nFields")) (EBin Mul (EV "nnz") (EV "d1"))) (EV "d2")) (EBin Add (EBin Mul (EBin Add (EV "nn") (EV "nx")) (EV "nFields")) (EV "d2")));
 (SStore (EV "mcols") (EBin Add (EBin Add (EBin Mul (EI 17) (EV "nFields")) (EBin Mul (EV "nnz") (EV "d1"))) (EV "d2")) (EI 0));
 (SStore (EV "mcols") (EBin Add (EBin Add (EBin Mul (EI 18) (EV "nFields")) (EBin Mul (EV "nnz") (EV "d1"))) (EV "d2")) (EI 0));
 (SStore (EV "mcols") (EBin Add (EBin Add (EBin Mul (EI 19) (EV "nFields")) (EBin Mul (EV "nnz") (EV "d1"))) (EV "d2")) (EI 0));
 (SStore (EV "mcols") (EBin Add (EBin Add (EBin Mul (EI 20) (EV "nFields")) (EBin Mul (EV "nnz") (EV "d1"))) (EV "d2")) (EI 0));
 (SStore (EV "mcols") (EBin Add (EBin Add (EBin Mul (EI 21) (EV "nFields")) (EBin Mul (EV "nnz") (EV "d1"))) (EV "d2")) (EBin Add (EBin Mul (EBin Sub (EBin Add (EV "nn") (EBin Mul (EV "nx") (EV "ny"))) (EI 1)) (EV "nFields")) (EV "d2")));
 (SStore (EV "mcols") (EBin Add (EBin Add (EBin Mul (EI 22) (EV "nFields")) (EBin Mul (EV "nnz") (EV "d1"))) (EV "d2")) (EBin Add (EBin Mul (EBin Add (EV "nn") (EBin Mul (EV "nx") (EV "ny"))) (EV "nFields")) (EV "d2")));
 (SStore (EV "mcols") (EBin Add (EBin Add (EBin Mul (EI 23) (EV "nFields")) (EBin Mul (EV "nnz") (EV "d1"))) (EV "d2")) (EI 0));
 (SStore (EV "mcols") (EBin Add (EBin Add (EBin Mul (EI 24) (EV "nFields")) (EBin Mul (EV "nnz") (EV "d1"))) (EV "d2")) (EBin Add (EBin Mul (EBin Sub (EBin Add (EBin Add (EV "nn") (EBin Mul (EV "nx") (EV "ny"))) (EV "nx")) (EI 1)) (EV "nFields")) (EV "d2")));
 (SStore (EV "mcols") (EBin Add (EBin Add (EBin Mul (EI 25) (EV "nFields")) (EBin Mul (EV "nnz") (EV "d1"))) (EV "d2")) (EBin Add (EBin Mul (EBin Add (EBin Add (EV "nn") (EBin Mul (EV "nx") (EV "ny"))) (EV "nx")) (EV "nFields")) (EV "d2")));
 (SStore (EV "mcols") (EBin Add (EBin Add (EBin Mul (EI 26) (EV "nFields")) (EBin Mul (EV "nnz") (EV "d1"))) (EV "d2")) (EI 0))])));
 (SSet "nn" (EBin Add (EBin Add (EBin Mul (EBin Mul (EI 0) (EV "nx")) (EV "ny")) (EBin Mul (EBin Sub (EV "ny") (EI 1)) (EV "nx"))) (EBin Sub (EV "nx") (EI 1))));
 (SSet "mcols" (EAdr (EFld (EV "m") "cols") (EBin Mul (EBin Mul (EV "nn") (EV "nFields")) (EV "nnz"))));
 (SFor "d1" (EI 0) (EBin Lt (EV "d1") (EV "nFields")) (SFor "d2" (EI 0) (EBin Lt (EV "d2") (EV "nFields")) (block [(SStore (EV "mcols") (EBin Add (EBin Add (EBin Mul (EI 0) (EV "nFields")) (EBin Mul (EV "nnz") (EV "d1"))) (EV "d2")) (EI 0));
 (SStore (EV "mcols") (EBin Add (EBin Add (EBin Mul (EI 1) (EV "nFields")) (EBin Mul (EV "nnz") (EV "d1"))) (EV "d2")) (EI 0));
 (SStore (EV "mcols") (EBin Add (EBin Add (EBin Mul (EI 2) (EV "nFields")) (EBin Mul (EV "nnz") (EV "d1"))) (EV "d2")) (EI 0));
 (SStore (EV "mcols") (EBin Add (EBin Add (EBin Mul (EI 3) (EV "nFields")) (EBin Mul (EV "nnz") (EV "d1"))) (EV "d2")) (EI 0));
 (SStore (EV "mcols") (EBin Add (EBin Add (EBin Mul (EI 4) (EV "nFields")) (EBin Mul (EV "nnz") (EV "d1"))) (EV "d2")) (EI 0));
 (SStore (EV "mcols") (EBin Add (EBin Add (EBin Mul (EI 5) (EV "nFields")) (EBin Mul (EV "nnz") (EV "d1"))) (EV "d2")) (EI 0));
 (SStore (EV "mcols") (EBin Add (EBin Add (EBin Mul (EI 6) (EV "nFields")) (EBin Mul (EV "nnz") (EV "d1"))) (EV "d2")) (EI 0));
 (SStore (EV "mcols") (EBin Add (EBin Add (EBin Mul (EI 7) (EV "nFields")) (EBin Mul (EV "nnz") (EV "d1"))) (EV "d2")) (EI 0));
 (SStore (EV "mcols") (EBin Add (EBin Add (EBin Mul (EI 8) (EV "nFields")) (EBin Mul (EV "nnz") (EV "d1"))) (EV "d2")) (EI 0));
 (SStore (EV "mcols") (EBin Add (EBin Add (EBin Mul (EI 9) (EV "nFields")) (EBin Mul (EV "nnz") (EV "d1"))) (EV "d2")) (EBin Add (EBin Mul (EBin Sub (EBin Sub (EV "nn") (EV "nx")) (EI 1)) (EV "nFields")) (EV "d2")));
 (SStore (EV "mcols") (EBin Add (EBin Add (EBin Mul (EI 10) (EV "nFields")) (EBin Mul (EV "nnz") (EV "d1"))) (EV "d2")) (EBin Add (EBin Mul (EBin Sub (EV "nn") (EV "nx")) (EV "nFields")) (EV "d2")));
 (SStore (EV "mcols") (EBin Add (EBin Add (EBin Mul (EI 11) (EV "nFields")) (EBin Mul (EV "nnz") (EV "d1"))) (EV "d2")) (EI 0));
 (SStore (EV "mcols") (EBin Add (EBin Add (EBin Mul (EI 12) (EV "nFields")) (EBin Mul (EV "nnz") (EV "d1"))) (EV "d2")) (EBin Add (EBin Mul (EBin Sub (EV "nn") (EI 1)) (EV "nFields")) (EV "d2")));
 (SStore (EV "mcols") (EBin Add (EBin Add (EBin Mul (EI 13) (EV "nFields")) (EBin Mul (EV "nnz") (EV "d1"))) (EV "d2")) (EBin Add (EBin Mul (EV "nn") (EV "nFields")) (EV "d2")));
 (SStore (EV "mcols") (EBin Add (EBin Add (EBin Mul (EI 14) (EV "nFields")) (EBin Mul (EV "nnz") (EV "d1"))) (EV "d2")) (EI 0));
 (SStore (EV "mcols") (EBin Add (EBin Add (EBin Mul (EI 15) (EV "nFields")) (EBin Mul (EV "nnz") (EV "d1"))) (EV "d2")) (EI 0));
 (SStore (EV "mcols") (EBin Add (EBin Add (EBin Mul (EI 16) (EV "nFields")) (EBin Mul (EV "nnz") (EV "d1"))) (EV "d2")) (EI 0));
 (SStore (EV "mcols") (EBin Add (EBin Add (EBin Mul (EI 17) (EV "nFields")) (EBin Mul (EV "nnz") (EV "d1"))) (EV "d2")) (EI 0));
 (SStore (EV "mcols") (EBin Add (EBin Add (EBin Mul (EI 18) (EV "nFields")) (EBin Mul (EV "nnz") (EV "d1"))) (EV "d2")) (EBin Add (EBin Mul (EBin Sub (EBin Sub (EBin Add (EV "nn") (EBin Mul (EV "nx") (EV "ny"))) (EV "nx")) (EI 1)) (EV "nFields")) (EV "d2")));
 (SStore (EV "mcols") (EBin Add (EBin Add (EBin Mul (EI 19) (EV "nFields")) (EBin Mul (EV "nnz") (EV "d1"))) (EV "d2")) (EBin Add (EBin Mul (EBin Sub (EBin Add (EV "nn") (EBin Mul (EV "nx") (EV "ny"))) (EV "nx")) (EV "nFields")) (EV "d2")));
 (SStore (EV "mcols") (EBin Add (EBin Add (EBin Mul (EI 20) (EV "nFields")) (EBin Mul (EV "nnz") (EV "d1"))) (EV "d2")) (EI 0));
 (SStore (EV "mcols") (EBin Add (EBin Add (EBin Mul (EI 21) (EV "nFields")) (EBin Mul (EV "nnz") (EV "d1"))) (EV "d2")) (EBin Add (EBin Mul (EBin Sub (EBin Add (EV "nn") (EBin Mul (EV "nx") (EV "ny"))) (EI 1)) (EV "nFields")) (EV "d2")));
 (SStore (EV "mcols") (EBin Add (EBin Add (EBin Mul (EI 22) (EV "nFields")) (EBin Mul (EV "nnz") (EV "d1"))) (EV "d2")) (EBin Add (EBin Mul (EBin Add (EV "nn") (EBin Mul (EV "nx") (EV "ny"))) (EV "nFields")) (EV "d2")));
 (SStore (EV "mcols") (EBin Add (EBin Add (EBin Mul (EI 23) (EV "nFields")) (EBin Mul (EV "nnz") (EV "d1"))) (EV "d2")) (EI 0));
 (SStore (EV "mcols") (EBin Add (EBin Add (EBin Mul (EI 24) (EV "nFields")) (EBin Mul (EV "nnz") (EV "d1"))) (EV "d2")) (EI 0));
 (SStore (EV "mcols") (EBin Add (EBin Add (EBin Mul (EI 25) (EV "nFields")) (EBin Mul (EV "nnz") (EV "d1"))) (EV "d2")) (EI 0));
 (SStore (EV "mcols") (EBin Add (EBin Add (EBin Mul (EI 26) (EV "nFields")) (EBin Mul (EV "nnz") (EV "d1"))) (EV "d2")) (EI 0))])));
 (SSet "nn" (EBin Add (EBin Add (EBin Mul (EBin Mul (EI 0) (EV "nx")) (EV "ny")) (EBin Mul (EBin Sub (EV "ny") (EI 1)) (EV "nx"))) (EI 0)));
 (SSet "mcols" (EAdr (EFld (EV "m") "cols") (EBin Mul (EBin Mul (EV "nn") (EV "nFields")) (EV "nnz"))));
 (SFor "d1" (EI 0) (EBin Lt (EV "d1") (EV "nFields")) (SFor "d2" (EI 0) (EBin Lt (EV "d2") (EV "nFields")) (block [(SStore (EV "mcols") (EBin Add (EBin Add (EBin Mul (EI 0) (EV "nFields")) (EBin Mul (EV "nnz") (EV "d1"))) (EV "d2")) (EI 0));
 (SStore (EV "mcols") (EBin Add (EBin Add (EBin Mul (EI 1) (EV "nFields")) (EBin Mul (EV "nnz") (EV "d1"))) (EV "d2")) (EI 0));
 (SStore (EV "mcols") (EBin Add (EBin Add (EBin Mul (EI 2) (EV "nFields")) (EBin Mul (EV "nnz") (EV "d1"))) (EV "d2")) (EI 0));
 (SStore (EV "mcols") (EBin Add (EBin Add (EBin Mul (EI 3) (EV "nFields")) (EBin Mul (EV "nnz") (EV "d1"))) (EV "d2")) (EI 0));
 (SStore (EV "mcols") (EBin Add (EBin Add (EBin Mul (EI 4) (EV "nFields")) (EBin Mul (EV "nnz") (EV "d1"))) (EV "d2")) (EI 0));
 (SStore (EV "mcols") (EBin Add (EBin Add (EBin Mul (EI 5) (EV "nFields")) (EBin Mul (EV "nnz") (EV "d1"))) (EV "d2")) (EI 0));
 (SStore (EV "mcols") (EBin Add (EBin Add (EBin Mul (EI 6) (EV "nFields")) (EBin Mul (EV "nnz") (EV "d1"))) (EV "d2")) (EI 0));
 (SStore (EV "mcols") (EBin Add (EBin Add (EBin Mul (EI 7) (EV "nFields")) (EBin Mul (EV "nnz") (EV "d1"))) (EV "d2")) (EI 0));
 (SStore (EV "mcols") (EBin Add (EBin Add (EBin Mul (EI 8) (EV "nFields")) (EBin Mul (EV "nnz") (EV "d1"))) (EV "d2")) (EI 0));
 (SStore (EV "mcols") (EBin Add (EBin Add (EBin Mul (EI 9) (EV "nFields")) (EBin Mul (EV "nnz") (EV "d1"))) (EV "d2")) (EI 0));
 (SStore (EV "mcols") (EBin Add (EBin Add (EBin Mul (EI 10) (EV "nFields")) (EBin Mul (EV "nnz") (EV "d1"))) (EV "d2")) (EBin Add (EBin Mul (EBin Sub (EV "nn") (EV "nx")) (EV "nFields")) (EV "d2")));
 (SStore (EV "mcols") (EBin Add (EBin Add (EBin Mul (EI 11) (EV "nFields")) (EBin Mul (EV "nnz") (EV "d1"))) (EV "d2")) (EBin Add (EBin Mul (EBin Add (EBin Sub (EV "nn") (EV "nx")) (EI 1)) (EV "nFields")) (EV "d2")));
 (SStore (EV "mcols") (EBin Add (EBin Add (EBin Mul (EI 12) (EV "nFields")) (EBin Mul (EV "nnz") (EV "d1"))) (EV "d2")) (EI 0));
 (SStore (EV "mcols") (EBin Add (EBin Add (EBin Mul (EI 13) (EV "nFields")) (EBin Mul (EV "nnz") (EV "d1"))) (EV "d2")) (EBin Add (EBin Mul (EV "nn") (EV "nFields")) (EV "d2")));
 (SStore (EV "mcols") (EBin Add (EBin Add (EBin Mul (EI 14) (EV "nFields")) (EBin Mul (EV "nnz") (EV "d1"))) (EV "d2")) (EBin Add (EBin Mul (EBin Add (EV "nn") (EI 1)) (EV "nFields")) (EV "d2")));
 (SStore (EV "mcols") (EBin Add (EBin Add (EBin Mul (EI 15) (EV "nFields")) (EBin Mul (EV "nnz") (EV "d1"))) (EV "d2")) (EI 0));
 (SStore (EV "mcols") (EBin Add (EBin Add (EBin Mul (EI 16) (EV "nFields")) (EBin Mul (EV "nnz") (EV "d1"))) (EV "d2")) (EI 0));
 (SStore (EV "mcols") (EBin Add (EBin Add (EBin Mul (EI 17) (EV "nFields")) (EBin Mul (EV "nnz") (EV "d1"))) (EV "d2")) (EI 0));
 (SStore (EV "mcols") (EBin Add (EBin Add (EBin Mul (EI 18) (EV "nFields")) (EBin Mul (EV "nnz") (EV "d1"))) (EV "d2")) (EI 0));
 (SStore (EV "mcols") (EBin Add (EBin Add (EBin Mul (EI 19) (EV "nFields")) (EBin Mul (EV "nnz") (EV "d1"))) (EV "d2")) (EBin Add (EBin Mul (EBin Sub (EBin Add (EV "nn") (EBin Mul (EV "nx") (EV "ny"))) (EV "nx")) (EV "nFields")) (EV "d2")));
 (SStore (EV "mcols") (EBin Add (EBin Add (EBin Mul (EI 20) (EV "nFields")) (EBin Mul (EV "nnz") (EV "d1"))) (EV "d2")) (EBin Add (EBin Mul (EBin Add (EBin Sub (EBin Add (EV "nn") (EBin Mul (EV "nx") (EV "ny"))) (EV "nx")) (EI 1)) (EV "nFields")) (EV "d2")));
 (SStore (EV "mcols") (EBin Add (EBin Add (EBin Mul (EI 21) (EV "nFields")) (EBin Mul (EV "nnz") (EV "d1"))) (EV "d2")) (EI 0));
 (SStore (EV "mcols") (EBin Add (EBin Add (EBin Mul (EI 22) (EV "nFields")) (EBin Mul (EV "nnz") (EV "d1"))) (EV "d2")) (EBin Add (EBin Mul (EBin Add (EV "nn") (EBin Mul (EV "nx") (EV "ny"))) (EV "nFields")) (EV "d2")));
 (SStore (EV "mcols") (EBin Add (EBin Add (EBin Mul (EI 23) (EV "nFields")) (EBin Mul (EV "nnz") (EV "d1"))) (EV "d2")) (EBin Add (EBin Mul (EBin Add (EBin Add (EV "nn") (EBin Mul (EV "nx") (EV "ny"))) (EI 1)) (EV "nFields")) (EV "d2")));
 (SStore (EV "mcols") (EBin Add (EBin Add (EBin Mul (EI 24) (EV "nFields")) (EBin Mul (EV "nnz") (EV "d1"))) (EV "d2")) (EI 0));
 (SStore (EV "mcols") (EBin Add (EBin Add (EBin Mul (EI 25) (EV "nFields")) (EBin Mul (EV "nnz") (EV "d1"))) (EV "d2")) (EI 0));
 (SStore (EV "mcols") (EBin Add (EBin Add (EBin Mul (EI 26) (EV "nFields")) (EBin Mul (EV "nnz") (EV "d1"))) (EV "d2")) (EI 0))])));
 (SSet "nn" (EBin Add (EBin Add (EBin Mul (EBin Mul (EBin Sub (EV "nz") (EI 1)) (EV "nx")) (EV "ny")) (EBin Mul (EI 0) (EV "nx"))) (EI 0)));
 (SSet "mcols" (EAdr (EFld (EV "m") "cols") (EBin Mul (EBin Mul (EV "nn") (EV "nFields")) (EV "nnz"))));
 (SFor "d1" (EI 0) (EBin Lt (EV "d1") (EV "nFields")) (SFor "d2" (EI 0) (EBin Lt (EV "d2") (EV "nFields")) (block [(SStore (EV "mcols") (EBin Add (EBin Add (EBin Mul (EI 0) (EV "nFields")) (EBin Mul (EV "nnz") (EV "d1"))) (EV "d2")) (EI 0));
 (SStore (EV "mcols") (EBin Add (EBin Add (EBin Mul (EI 1) (EV "nFields")) (EBin Mul (EV "nnz") (EV "d1"))) (EV "d2")) (EI 0));
 (SStore (EV "mcols") (EBin Add (EBin Add (EBin Mul (EI 2) (EV "nFields")) (EBin Mul (EV "nnz") (EV "d1"))) (EV "d2")) (EI 0));
 (SStore (EV "mcols") (EBin Add (EBin Add (EBin Mul (EI 3) (EV "nFields")) (EBin Mul (EV "nnz") (EV "d1"))) (EV "d2")) (EI 0));
 (SStore (EV "mcols") (EBin Add (EBin Add (EBin Mul (EI 4) (EV "nFields")) (EBin Mul (EV "nnz") (EV "d1"))) (EV "d2")) (EBin Add (EBin Mul (EBin Sub (EV "nn") (EBin Mul (EV "nx") (EV "ny"))) (EV "nFields")) (EV "d2")));
 (SStore (EV "mcols") (EBin Add (EBin Add (EBin Mul (EI 5) (EV "nFields")) (EBin Mul (EV "nnz") (EV "d1"))) (EV "d2")) (EBin Add (EBin Mul (EBin Add (EBin Sub (EV "nn") (EBin Mul (EV "nx") (EV "ny"))) (EI 1)) (EV "nFields")) (EV "d2")));
 (SStore (EV "mcols") (EBin Add (EBin Add (EBin Mul (EI 6) (EV "nFields")) (EBin Mul (EV "nnz") (EV "d1"))) (EV "d2")) (EI 0));
 (SStore (EV "mcols") (EBin Add (EBin Add (EBin Mul (EI 7) (EV "nFields")) (EBin Mul (EV "nnz") (EV "d1"))) (EV "d2")) (EBin Add (EBin Mul (EBin Add (EBin Sub (EV "nn") (EBin Mul (EV "nx") (EV "ny"))) (EV "nx")) (EV "nFields")) (EV "d2")));
 (SStore (EV "mcols") (EBin Add (EBin Add (EBin Mul (EI 8) (EV "nFields")) (EBin Mul (EV "nnz") (EV "d1"))) (EV "d2")) (EBin Add (EBin Mul (EBin Add (EBin Add (EBin Sub (EV "nn") (EBin Mul (EV "nx") (EV "ny"))) (EV "nx")) (EI 1)) (EV "nFields")) (EV "d2")));
 (SStore (EV "mcols") (EBin Add (EBin Add (EBin Mul (EI 9) (EV "nFields")) (EBin Mul (EV "nnz") (EV "d1"))) (EV "d2")) (EI 0));
 (SStore (EV "mcols") (EBin Add (EBin Add (EBin Mul (EI 10) (EV "nFields")) (EBin Mul (EV "nnz") (EV "d1"))) (EV "d2")) (EI 0));
 (SStore (EV "mcols") (EBin Add (EBin Add (EBin Mul (EI 11) (EV "nFields")) (EBin Mul (EV "nnz") (EV "d1"))) (EV "d2")) (EI 0));
 (SStore (EV "mcols") (EBin Add (EBin Add (EBin Mul (EI 12) (EV "nFields")) (EBin Mul (EV "nnz") (EV "d1"))) (EV "d2")) (EI 0));
 (SStore (EV "mcols") (EBin Add (EBin Add (EBin Mul (EI 13) (EV "nFields")) (EBin Mul (EV "nnz") (EV "d1"))) (EV "d2")) (EBin Add (EBin Mul (EV "nn") (EV "nFields")) (EV "d2")));
 (SStore (EV "mcols") (EBin Add (EBin Add (EBin Mul (EI 14) (EV "nFields")) (EBin Mul (EV "nnz") (EV "d1"))) (EV "d2")) (EBin Add (EBin Mul (EBin Add (EV "nn") (EI 1)) (EV "nFields")) (EV "d2")));
 (SStore (EV "mcols") (EBin Add (EBin Add (EBin Mul (EI 15) (EV "nFields")) (EBin Mul (EV "nnz") (EV "d1"))) (EV "d2")) (EI 0));
 (SStore (EV "mcols") (EBin Add (EBin Add (EBin Mul (EI 16) (EV "nFields")) (EBin Mul (EV "nnz") (EV "d1"))) (EV "d2")) (EBin Add (EBin Mul (EBin Add (EV "nn") (EV "nx")) (EV "nFields")) (EV "d2")));
 (SStore (EV "mcols") (EBin Add (EBin Add (EBin Mul (EI 17) (EV "nFields")) (EBin Mul (EV "nnz") (EV "d1"))) (EV "d2")) (EBin Add (EBin Mul (EBin Add (EBin Add (EV "nn") (EV "nx")) (EI 1)) (EV "nFields")) (EV "d2")));
 (SStore (EV "mcols") (EBin Add (EBin Add (EBin Mul (EI 18) (EV "nFields")) (EBin Mul (EV "nnz") (EV "d1"))) (EV "d2")) (EI 0));
 (SStore (EV "mcols") (EBin Add (EBin Add (EBin Mul (EI 19) (EV "nFields")) (EBin Mul (EV "nnz") (EV "d1"))) (EV "d2")) (EI 0));
 (SStore (EV "mcols") (EBin Add (EBin Add (EBin Mul (EI 20) (EV "nFields")) (EBin Mul (EV "nnz") (EV "d1"))) (EV "d2")) (EI 0));
 (SStore (EV "mcols") (EBin Add (EBin Add (EBin Mul (EI 21) (EV "nFields")) (EBin Mul (EV "nnz") (EV "d1"))) (EV "d2")) (EI 0));
 (SStore (EV "mcols") (EBin Add (EBin Add (EBin Mul (EI 22) (EV "nFields")) (EBin Mul (EV "nnz") (EV "d1"))) (EV "d2")) (EI 0));
 (SStore (EV "mcols") (EBin Add (EBin Add (EBin Mul (EI 23) (EV "nFields")) (EBin Mul (EV "nnz") (EV "d1"))) (EV "d2")) (EI 0));
 (SStore (EV "mcols") (EBin Add (EBin Add (EBin Mul (EI 24) (EV "nFields")) (EBin Mul (EV "nnz") (EV "d1"))) (EV "d2")) (EI 0));
 (SStore (EV "mcols") (EBin Add (EBin Add (EBin Mul (EI 25) (EV "nFields")) (EBin Mul (EV "nnz") (EV "d1"))) (EV "d2")) (EI 0));
 (SStore (EV "mcols") (EBin Add (EBin Add (EBin Mul (EI 26) (EV "nFields")) (EBin Mul (EV "nnz") (EV "d1"))) (EV "d2")) (EI 0))])));
 (SSet "nn" (EBin Add (EBin Add (EBin Mul (EBin Mul (EBin Sub (EV "nz") (EI 1)) (EV "nx")) (EV "ny")) (EBin Mul (EI 0) (EV "nx"))) (EBin Sub (EV "nx") (EI 1))));
 (SSet "mcols" (EAdr (EFld (EV "m") "cols") (EBin Mul (EBin Mul (EV "nn") (EV "nFields")) (EV "nnz"))));
 (SFor "d1" (EI 0) (EBin Lt (EV "d1") (EV "nFields")) (SFor "d2" (EI 0) (EBin Lt (EV "d2") (EV "nFields")) (block [(SStore (EV "mcols") (EBin Add (EBin Add (EBin Mul (EI 0) (EV "nFields")) (EBin Mul (EV "nnz") (EV "d1"))) (EV "d2")) (EI 0));
 (SStore (EV "mcols") (EBin Add (EBin Add (EBin Mul (EI 1) (EV "nFields")) (EBin Mul (EV "nnz") (EV "d1"))) (EV "d2")) (EI 0));
 (SStore (EV "mcols") (EBin Add (EBin Add (EBin Mul (EI 2) (EV "nFields")) (EBin Mul (EV "nnz") (EV "d1"))) (EV "d2")) (EI 0));
 (SStore (EV "mcols") (EBin Add (EBin Add (EBin Mul (EI 3) (EV "nFields")) (EBin Mul (EV "nnz") (EV "d1"))) (EV "d2")) (EBin Add (EBin Mul (EBin Sub (EBin Sub (EV "nn") (EBin Mul (EV "nx") (EV "ny"))) (EI 1)) (EV "nFields")) (EV "d2")));
 (SStore (EV "mcols") (EBin Add (EBin Add (EBin Mul (EI 4) (EV "nFields")) (EBin Mul (EV "nnz") (EV "d1"))) (EV "d2")) (EBin Add (EBin Mul (EBin Sub (EV "nn") (EBin Mul (EV "nx") (EV "ny"))) (EV "nFields")) (EV "d2")));
 (SStore (EV "mcols") (EBin Add (EBin Add (EBin Mul (EI 5) (EV "nFields")) (EBin Mul (EV "nnz") (EV "d1"))) (EV "d2")) (EI 0));
 (SStore (EV "mcols") (EBin Add (EBin Add (EBin Mul (EI 6) (EV "nFields")) (EBin Mul (EV "nnz") (EV "d1"))) (EV "d2")) (EBin Add (EBin Mul (EBin Sub (EBin Add (EBin Sub (EV "nn") (EBin Mul (EV "nx") (EV "ny"))) (EV "nx")) (EI 1)) (EV "nFields")) (EV "d2")));
 (SStore (EV "mcols") (EBin Add (EBin Add (EBin Mul (EI 7) (EV "nFields")) (EBin Mul (EV "nnz") (EV "d1"))) (EV "d2")) (EBin Add (EBin Mul (EBin Add (EBin Sub (EV "nn") (EBin Mul (EV "nx") (EV "ny"))) (EV "nx")) (EV "nFields")) (EV "d2")));
 (SStore (EV "mcols") (EBin Add (EBin Add (EBin Mul (EI 8) (EV "nFields")) (EBin Mul (EV "nnz") (EV "d1"))) (EV "d2")) (EI 0));
 (SStore (EV "mcols") (EBin Add (EBin Add (EBin Mul (EI 9) (EV "nFields")) (EBin Mul (EV "nnz") (EV "d1"))) (EV "d2")) (EI 0));
 (SStore (EV "mcols") (EBin Add (EBin Add (EBin Mul (EI 10) (EV "nFields")) (EBin Mul (EV "nnz") (EV "d1"))) (EV "d2")) (EI 0));
 (SStore (EV "mcols") (EBin Add (EBin Add (EBin Mul (EI 11) (EV "nFields")) (EBin Mul (EV "nnz") (EV "d1"))) (EV "d2")) (EI 0));
 (SStore (EV "mcols") (EBin Add (EBin Add (EBin Mul (EI 12) (EV "nFields")) (EBin Mul (EV "nnz") (EV "d1"))) (EV "d2")) (EBin Add (EBin Mul (EBin Sub (EV "nn") (EI 1)) (EV "nFields")) (EV "d2")));
 (SStore (EV "mcols") (EBin Add (EBin Add (EBin Mul (EI 13) (EV "nFields")) (EBin Mul (EV "nnz") (EV "d1"))) (EV "d2")) (EBin Add (EBin Mul (EV "nn") (EV "nFields")) (EV "d2")));
 (SStore (EV "mcols") (EBin Add (EBin Add (EBin Mul (EI 14) (EV "nFields")) (EBin Mul (EV "nnz") (EV "d1"))) (EV "d2")) (EI 0));
 (SStore (EV "mcols") (EBin Add (EBin Add (EBin Mul (EI 15) (EV "nFields")) (EBin Mul (EV "nnz") (EV "d1"))) (EV "d2")) (EBin Add (EBin Mul (EBin Sub (EBin Add (EV "nn") (EV "nx")) (EI 1)) (EV "nFields")) (EV "d2")));
 (SStore (EV "mcols") (EBin Add (EBin Add (EBin Mul (EI 16) (EV "nFields")) (EBin Mul (EV "nnz") (EV "d1"))) (EV "d2")) (EBin Add (EBin Mul (EBin Add (EV "nn") (EV "nx")) (EV "nFields")) (EV "d2")));
 (SStore (EV "mcols") (EBin Add (EBin Add (EBin Mul (EI 17) (EV "nFields")) (EBin Mul (EV "nnz") (EV "d1"))) (EV "d2")) (EI 0));
 (SStore (EV "mcols") (EBin Add (EBin Add (EBin Mul (EI 18) (EV "nFields")) (EBin Mul (EV "nnz") (EV "d1"))) (EV "d2")) (EI 0));
 (SStore (EV "mcols") (EBin Add (EBin Add (EBin Mul (EI 19) (EV "nFields")) (EBin Mul (EV "nnz") (EV "d1"))) (EV "d2")) (EI 0));
 (SStore (EV "mcols") (EBin Add (EBin Add (EBin Mul (EI 20) (EV "nFields")) (EBin Mul (EV "nnz") (EV "d1"))) (EV "d2")) (EI 0));
 (SStore (EV "mcols") (EBin Add (EBin Add (EBin Mul (EI 21) (EV "nFields")) (EBin Mul (EV "nnz") (EV "d1"))) (EV "d2")) (EI 0));
 (SStore (EV "mcols") (EBin Add (EBin Add (EBin Mul (EI 22) (EV "nFields")) (EBin Mul (EV "nnz") (EV "d1"))) (EV "d2")) (EI 0));
 (SStore (EV "mcols") (EBin Add (EBin Add (EBin Mul (EI 23) (EV "nFields")) (EBin Mul (EV "nnz") (EV "d1"))) (EV "d2")) (EI 0));
 (SStore (EV "mcols") (EBin Add (EBin Add (EBin Mul (EI 24) (EV "nFields")) (EBin Mul (EV "nnz") (EV "d1"))) (EV "d2")) (EI 0));
 (SStore (EV "mcols") (EBin Add (EBin Add (EBin Mul (EI 25) (EV "nFields")) (EBin Mul (EV "nnz") (EV "d1"))) (EV "d2")) (EI 0));
 (SStore (EV "mcols") (EBin Add (EBin Add (EBin Mul (EI 26) (EV "nFields")) (EBin Mul (EV "nnz") (EV "d1"))) (EV "d2")) (EI 0))])));
 (SSet "nn" (EBin Add (EBin Add (EBin Mul (EBin Mul (EBin Sub (EV "nz") (EI 1)) (EV "nx")) (EV "ny")) (EBin Mul (EBin Sub (EV "ny") (EI 1)) (EV "nx"))) (EBin Sub (EV "nx") (EI 1))));
 (SSet "mcols" (EAdr (EFld (EV "m") "cols") (EBin Mul (EBin Mul (EV "nn") (EV "nFields")) (EV "nnz"))));
 (SFor "d1" (EI 0) (EBin Lt (EV "d1") (EV "nFields")) (SFor "d2" (EI 0) (EBin Lt (EV "d2") (EV "nFields")) (block [(SStore (EV "mcols") (EBin Add (EBin Add (EBin Mul (EI 0) (EV "nFields")) (EBin Mul (EV "nnz") (EV "d1"))) (EV "d2")) (EBin Add (EBin Mul (EBin Sub (EBin Sub (EBin Sub (EV "nn") (EBin Mul (EV "nx") (EV "ny"))) (EV "nx")) (EI 1)) (EV "nFields")) (EV "d2")));
 (SStore (EV "mcols") (EBin Add (EBin Add (EBin Mul (EI 1) (EV "nFields")) (EBin Mul (EV "nnz") (EV "d1"))) (EV "d2")) (EBin Add (EBin Mul (EBin Sub (EBin Sub (EV "nn") (EBin Mul (EV "nx") (EV "ny"))) (EV "nx")) (EV "nFields")) (EV "d2")));
 (SStore (EV "mcols") (EBin Add (EBin Add (EBin Mul (EI 2) (EV "nFields")) (EBin Mul (EV "nnz") (EV "d1"))) (EV "d2")) (EI 0));
 (SStore (EV "mcols") (EBin Add (EBin Add (EBin Mul (EI 3) (EV "nFields")) (EBin Mul (EV "nnz") (EV "d1"))) (EV "d2")) (EBin Add (EBin Mul (EBin Sub (EBin Sub (EV "nn") (EBin Mul (EV "nx") (EV "ny"))) (EI 1)) (EV "nFields")) (EV "d2")));
 (SStore (EV "mcols") (EBin Add (EBin Add (EBin Mul (EI 4) (EV "nFields")) (EBin Mul (EV "nnz") (EV "d1"))) (EV "d2")) (EBin Add (EBin Mul (EBin Sub (EV "nn") (EBin Mul (EV "nx") (EV "ny"))) (EV "nFields")) (EV "d2")));
 (SStore (EV "mcols") (EBin Add (EBin Add (EBin Mul (EI 5) (EV "nFields")) (EBin Mul (EV "nnz") (EV "d1"))) (EV "d2")) (EI 0));
 (SStore (EV "mcols") (EBin Add (EBin Add (EBin Mul (EI 6) (EV "nFields")) (EBin Mul (EV "nnz") (EV "d1"))) (EV "d2")) (EI 0));
 (SStore (EV "mcols") (EBin Add (EBin Add (EBin Mul (EI 7) (EV "nFields")) (EBin Mul (EV "nnz") (EV "d1"))) (EV "d2")) (EI 0));
 (SStore (EV "mcols") (EBin Add (EBin Add (EBin Mul (EI 8) (EV "nFields")) (EBin Mul (EV "nnz") (EV "d1"))) (EV "d2")) (EI 0));
 (SStore (EV "mcols") (EBin Add (EBin Add (EBin Mul (EI 9) (EV "nFields")) (EBin Mul (EV "nnz") (EV "d1"))) (EV "d2")) (EBin Add (EBin Mul (EBin Sub (EBin Sub (EV "nn") (EV "nx")) (EI 1)) (EV "nFields")) (EV "d2")));
 (SStore (EV "mcols") (EBin Add (EBin Add (EBin Mul (EI 10) (EV "nFields")) (EBin Mul (EV "nnz") (EV "d1"))) (EV "d2")) (EBin Add (EBin Mul (EBin Sub (EV "nn") (EV "nx")) (EV "nFields")) (EV "d2")));
 (SStore (EV "mcols") (EBin Add (EBin Add (EBin Mul (EI 11) (EV "nFields")) (EBin Mul (EV "nnz") (EV "d1"))) (EV "d2")) (EI 0));
 (SStore (EV "mcols") (EBin Add (EBin Add (EBin Mul (EI 12) (EV "nFields")) (EBin Mul (EV "nnz") (EV "d1"))) (EV "d2")) (EBin Add (EBin Mul (EBin Sub (EV "nn") (EI 1)) (EV "nFields")) (EV "d2")));
 (SStore (EV "mcols") (EBin Add (EBin Add (EBin Mul (EI 13) (EV "nFields")) (EBin Mul (EV "nnz") (EV "d1"))) (EV "d2")) (EBin Add (EBin Mul (EV "nn") (EV "nFields")) (EV "d2")));
 (SStore (EV "mcols") (EBin Add (EBin Add (EBin Mul (EI 14) (EV "nFields")) (EBin Mul (EV "nnz") (EV "d1"))) (EV "d2")) (EI 0));
 (SStore (EV "mcols") (EBin Add (EBin Add (EBin Mul (EI 15) (EV "nFields")) (EBin Mul (EV "nnz") (EV "d1"))) (EV "d2")) (EI 0));
 (SStore (EV "mcols") (EBin Add (EBin Add (EBin Mul (EI 16) (EV "nFields")) (EBin Mul (EV "nnz") (EV "d1"))) (EV "d2")) (EI 0));
 (SStore (EV "mcols") (EBin Add (EBin Add (EBin Mul (EI 17) (EV "nFields")) (EBin Mul (EV "nnz") (EV "d1"))) (EV "d2")) (EI 0));
 (SStore (EV "mcols") (EBin Add (EBin Add (EBin Mul (EI 18) (EV "nFields")) (EBin Mul (EV "nnz") (EV "d1"))) (EV "d2")) (EI 0));
 (SStore (EV "mcols") (EBin Add (EBin Add (EBin Mul (EI 19) (EV "nFields")) (EBin Mul (EV "nnz") (EV "d1"))) (EV "d2")) (EI 0));
 (SStore (EV "mcols") (EBin Add (EBin Add (EBin Mul (EI 20) (EV "nFields")) (EBin Mul (EV "nnz") (EV "d1"))) (EV "d2")) (EI 0));
 (SStore (EV "mcols") (EBin Add (EBin Add (EBin Mul (EI 21) (EV "nFields")) (EBin Mul (EV "nnz") (EV "d1"))) (EV "d2")) (EI 0));
 (SStore (EV "mcols") (EBin Add (EBin Add (EBin Mul (EI 22) (EV "nFields")) (EBin Mul (EV "nnz") (EV "d1"))) (EV "d2")) (EI 0));
 (SStore (EV "mcols") (EBin Add (EBin Add (EBin Mul (EI 23) (EV "nFields")) (EBin Mul (EV "nnz") (EV "d1"))) (EV "d2")) (EI 0));
 (SStore (EV "mcols") (EBin Add (EBin Add (EBin Mul (EI 24) (EV "nFields")) (EBin Mul (EV "nnz") (EV "d1"))) (EV "d2")) (EI 0));
 (SStore (EV "mcols") (EBin Add (EBin Add (EBin Mul (EI 25) (EV "nFields")) (EBin Mul (EV "nnz") (EV "d1"))) (EV "d2")) (EI 0));
 (SStore (EV "mcols") (EBin Add (EBin Add (EBin Mul (EI 26) (EV "nFields")) (EBin Mul (EV "nnz") (EV "d1"))) (EV "d2")) (EI 0))])));
 (SSet "nn" (EBin Add (EBin Add (EBin Mul (EBin Mul (EBin Sub (EV "nz") (EI 1)) (EV "nx")) (EV "ny")) (EBin Mul (EBin Sub (EV "ny") (EI 1)) (EV "nx"))) (EI 0)));
 (SSet "mcols" (EAdr (EFld (EV "m") "cols") (EBin Mul (EBin Mul (EV "nn") (EV "nFields")) (EV "nnz"))));
 (SFor "d1" (EI 0) (EBin Lt (EV "d1") (EV "nFields")) (SFor "d2" (EI 0) (EBin Lt (EV "d2") (EV "nFields")) (block [(SStore (EV "mcols") (EBin Add (EBin Add (EBin Mul (EI 0) (EV "nFields")) (EBin Mul (EV "nnz") (EV "d1"))) (EV "d2")) (EI 0));
 (SStore (EV "mcols") (EBin Add (EBin Add (EBin Mul (EI 1) (EV "nFields")) (EBin Mul (EV "nnz") (EV "d1"))) (EV "d2")) (EBin Add (EBin Mul (EBin Sub (EBin Sub (EV "nn") (EBin Mul (EV "nx") (EV "ny"))) (EV "nx")) (EV "nFields")) (EV "d2")));
 (SStore (EV "mcols") (EBin Add (EBin Add (EBin Mul (EI 2) (EV "nFields")) (EBin Mul (EV "nnz") (EV "d1"))) (EV "d2")) (EBin Add (EBin Mul (EBin Add (EBin Sub (EBin Sub (EV "nn") (EBin Mul (EV "nx") (EV "ny"))) (EV "nx")) (EI 1)) (EV "nFields")) (EV "d2")));
 (SStore (EV "mcols") (EBin Add (EBin Add (EBin Mul (EI 3) (EV "nFields")) (EBin Mul (EV "nnz") (EV "d1"))) (EV "d2")) (EI 0));
 (SStore (EV "mcols") (EBin Add (EBin Add (EBin Mul (EI 4) (EV "nFields")) (EBin Mul (EV "nnz") (EV "d1"))) (EV "d2")) (EBin Add (EBin Mul (EBin Sub (EV "nn") (EBin Mul (EV "nx") (EV "ny"))) (EV "nFields")) (EV "d2")));
 (SStore (EV "mcols") (EBin Add (EBin Add (EBin Mul (EI 5) (EV "nFields")) (EBin Mul (EV "nnz") (EV "d1"))) (EV "d2")) (EBin Add (EBin Mul (EBin Add (EBin Sub (EV "nn") (EBin Mul (EV "nx") (EV "ny"))) (EI 1)) (EV "nFields")) (EV "d2")));
 (SStore (EV "mcols") (EBin Add (EBin Add (EBin Mul (EI 6) (EV "nFields")) (EBin Mul (EV "nnz") (EV "d1"))) (EV "d2")) (EI 0));
 (SStore (EV "mcols") (EBin Add (EBin Add (EBin Mul (EI 7) (EV "nFields")) (EBin Mul (EV "nnz") (EV "d1"))) (EV "d2")) (EI 0));
 (SStore (EV "mcols") (EBin Add (EBin Add (EBin Mul (EI 8) (EV "nFields")) (EBin Mul (EV "nnz") (EV "d1"))) (EV "d2")) (EI 0));
 (SStore (EV "mcols") (EBin Add (EBin Add (EBin Mul (EI 9) (EV "nFields")) (EBin Mul (EV "nnz") (EV "d1"))) (EV "d2")) (EI 0));
 (SStore (EV "mcols") (EBin Add (EBin Add (EBin Mul (EI 10) (EV "nFields")) (EBin Mul (EV "nnz") (EV "d1"))) (EV "d2")) (EBin Add (EBin Mul (EBin Sub (EV "nn") (EV "nx")) (EV "nFields")) (EV "d2")));
 (SStore (EV "mcols") (EBin Add (EBin Add (EBin Mul (EI 11) (EV "nFields")) (EBin Mul (EV "nnz") (EV "d1"))) (EV "d2")) (EBin Add (EBin Mul (EBin Add (EBin Sub (EV "nn") (EV "nx")) (EI 1)) (EV "nFields")) (EV "d2")));
 (SStore (EV "mcols") (EBin Add (EBin Add (EBin Mul (EI 12) (EV "nFields")) (EBin Mul (EV "nnz") (EV "d1"))) (EV "d2")) (EI 0));
 (SStore (EV "mcols") (EBin Add (EBin Add (EBin Mul (EI 13) (EV "nFields")) (EBin Mul (EV "nnz") (EV "d1"))) (EV "d2")) (EBin Add (EBin Mul (EV "nn") (EV "nFields")) (EV "d2")));
 (SStore (EV "mcols") (EBin Add (EBin Add (EBin Mul (EI 14) (EV "nFields")) (EBin Mul (EV "nnz") (EV "d1"))) (EV "d2")) (EBin Add (EBin Mul (EBin Add (EV "nn") (EI 1)) (EV "nFields")) (EV "d2")));
 (SStore (EV "mcols") (EBin Add (EBin Add (EBin Mul (EI 15) (EV "nFields")) (EBin Mul (EV "nnz") (EV "d1"))) (EV "d2")) (EI 0));
 (SStore (EV "mcols") (EBin Add (EBin Add (EBin Mul (EI 16) (EV "nFields")) (EBin Mul (EV "nnz") (EV "d1"))) (EV "d2")) (EI 0));
 (SStore (EV "mcols") (EBin Add (EBin Add (EBin Mul (EI 17) (EV "nFields")) (EBin Mul (EV "nnz") (EV "d1"))) (EV "d2")) (EI 0));
 (SStore (EV "mcols") (EBin Add (EBin Add (EBin Mul (EI 18) (EV "nFields")) (EBin Mul (EV "nnz") (EV "d1"))) (EV "d2")) (EI 0));
 (SStore (EV "mcols") (EBin Add (EBin Add (EBin Mul (EI 19) (EV "nFields")) (EBin Mul (EV "nnz") (EV "d1"))) (EV "d2")) (EI 0));
 (SStore (EV "mcols") (EBin Add (EBin Add (EBin Mul (EI 20) (EV "nFields")) (EBin Mul (EV "nnz") (EV "d1"))) (EV "d2")) (EI 0));
 (SStore (EV "mcols") (EBin Add (EBin Add (EBin Mul (EI 21) (EV "nFields")) (EBin Mul (EV "nnz") (EV "d1"))) (EV "d2")) (EI 0));
 (SStore (EV "mcols") (EBin Add (EBin Add (EBin Mul (EI 22) (EV "nFields")) (EBin Mul (EV "nnz") (EV "d1"))) (EV "d2")) (EI 0));
 (SStore (EV "mcols") (EBin Add (EBin Add (EBin Mul (EI 23) (EV "nFields")) (EBin Mul (EV "nnz") (EV "d1"))) (EV "d2")) (EI 0));
 (SStore (EV "mcols") (EBin Add (EBin Add (EBin Mul (EI 24) (EV "nFields")) (EBin Mul (EV "nnz") (EV "d1"))) (EV "d2")) (EI 0));
 (SStore (EV "mcols") (EBin Add (EBin Add (EBin Mul (EI 25) (EV "nFields")) (EBin Mul (EV "nnz") (EV "d1"))) (EV "d2")) (EI 0));
 (SStore (EV "mcols") (EBin Add (EBin Add (EBin Mul (EI 26) (EV "nFields")) (EBin Mul (EV "nnz") (EV "d1"))) (EV "d2")) (EI 0))])));
 (SFor "k" (EI 1) (EBin Lt (EV "k") (EBin Sub (EV "nz") (EI 1))) (block [(SSet "nn" (EBin Add (EBin Add (EBin Mul (EBin Mul (EV "k") (EV "nx")) (EV "ny")) (EBin Mul (EI 0) (EV "nx"))) (EI 0)));
 (SSet "mcols" (EAdr (EFld (EV "m") "cols") (EBin Mul (EBin Mul (EV "nn") (EV "nFields")) (EV "nnz"))));
 (SFor "d1" (EI 0) (EBin Lt (EV "d1") (EV "nFields")) (SFor "d2" (EI 0) (EBin Lt (EV "d2") (EV "nFields")) (block [(SStore (EV "mcols") (EBin Add (EBin Add (EBin Mul (EI 0) (EV "nFields")) (EBin Mul (EV "nnz") (EV "d1"))) (EV "d2")) (EI 0));
 (SStore (EV "mcols") (EBin Add (EBin Add (EBin Mul (EI 1) (EV "nFields")) (EBin Mul (EV "nnz") (EV "d1"))) (EV "d2")) (EI 0));
 (SStore (EV "mcols") (EBin Add (EBin Add (EBin Mul (EI 2) (EV "nFields")) (EBin Mul (EV "nnz") (EV "d1"))) (EV "d2")) (EI 0));
 (SStore (EV "mcols") (EBin Add (EBin Add (EBin Mul (EI 3) (EV "nFields")) (EBin Mul (EV "nnz") (EV "d1"))) (EV "d2")) (EI 0));
 (SStore (EV "mcols") (EBin Add (EBin Add (EBin Mul (EI 4) (EV "nFields")) (EBin Mul (EV "nnz") (EV "d1"))) (EV "d2")) (EBin Add (EBin Mul (EBin Sub (EV "nn") (EBin Mul (EV "nx") (EV "ny"))) (EV "nFields")) (EV "d2")));
 (SStore (EV "mcols") (EBin Add (EBin Add (EBin Mul (EI 5) (EV "nFields")) (EBin Mul (EV "nnz") (EV "d1"))) (EV "d2")) (EBin Add (EBin Mul (EBin Add (EBin Sub (EV "nn") (EBin Mul (EV "nx") (EV "ny"))) (EI 1)) (EV "nFields")) (EV "d2")));
 (SStore (EV "mcols") (EBin Add (EBin Add (EBin Mul (EI 6) (EV "nFields")) (EBin Mul (EV "nnz") (EV "d1"))) (EV "d2")) (EI 0));
 (SStore (EV "mcols") (EBin Add (EBin Add (EBin Mul (EI 7) (EV "nFields")) (EBin Mul (EV "nnz") (EV "d1"))) (EV "d2")) (EBin Add (EBin Mul (EBin Add (EBin Sub (EV "nn") (EBin Mul (EV "nx") (EV "ny"))) (EV "nx")) (EV "nFields")) (EV "d2")));
 (SStore (EV "mcols") (EBin Add (EBin Add (EBin Mul (EI 8) (EV "nFields")) (EBin Mul (EV "nnz") (EV "d1"))) (EV "d2")) (EBin Add (EBin Mul (EBin Add (EBin Add (EBin Sub (EV "nn") (EBin Mul (EV "nx") (EV "ny"))) (EV "nx")) (EI 1)) (EV "nFields")) (EV "d2")));
 (SStore (EV "mcols") (EBin Add (EBin Add (EBin Mul (EI 9) (EV "nFields")) (EBin Mul (EV "nnz") (EV "d1"))) (EV "d2")) (EI 0));
 (SStore (EV "mcols") (EBin Add (EBin Add (EBin Mul (EI 10) (EV "nFields")) (EBin Mul (EV "nnz") (EV "d1"))) (EV "d2")) (EI 0));
 (SStore (EV "mcols") (EBin Add (EBin Add (EBin Mul (EI 11) (EV "nFields")) (EBin Mul (EV "nnz") (EV "d1"))) (EV "d2")) (EI 0));
 (SStore (EV "mcols") (EBin Add (EBin Add (EBin Mul (EI 12) (EV "nFields")) (EBin Mul (EV "nnz") (EV "d1"))) (EV "d2")) (EI 0));
 (SStore (EV "mcols") (EBin Add (EBin Add (EBin Mul (EI 13) (EV "nFields")) (EBin Mul (EV "nnz") (EV "d1"))) (EV "d2")) (EBin Add (EBin Mul (EV "nn") (EV "nFields")) (EV "d2")));
 (SStore (EV "mcols") (EBin Add (EBin Add (EBin Mul (EI 14) (EV "nFields")) (EBin Mul (EV "nnz") (EV "d1"))) (EV "d2")) (EBin Add (EBin Mul (EBin Add (EV "nn") (EI 1)) (EV "nFields")) (EV "d2")));
 (SStore (EV "mcols") (EBin Add (EBin Add (EBin Mul (EI 15) (EV "nFields")) (EBin Mul (EV "nnz") (EV "d1"))) (EV "d2")) (EI 0));
 (SStore (EV "mcols") (EBin Add (EBin Add (EBin Mul (EI 16) (EV "nFields")) (EBin Mul (EV "nnz") (EV "d1"))) (EV "d2")) (EBin Add (EBin Mul (EBin Add (EV "nn") (EV "nx")) (EV "nFields")) (EV "d2")));
 (SStore (EV "mcols") (EBin Add (EBin Add (EBin Mul (EI 17) (EV "nFields")) (EBin Mul (EV "nnz") (EV "d1"))) (EV "d2")) (EBin Add (EBin Mul (EBin Add (EBin Add (EV "nn") (EV "nx")) (EI 1)) (EV "nFields")) (EV "d2")));
 (SStore (EV "mcols") (EBin Add (EBin Add (EBin Mul (EI 18) (EV "nFields")) (EBin Mul (EV "nnz") (EV "d1"))) (EV "d2")) (EI 0));
 (SStore (EV "mcols") (EBin Add (EBin Add (EBin Mul (EI 19) (EV "nFields")) (EBin Mul (EV "nnz") (EV "d1"))) (EV "d2")) (EI 0));
 (SStore (EV "mcols") (EBin Add (EBin Add (EBin Mul (EI 20) (EV "nFields")) (EBin Mul (EV "nnz") (EV "d1"))) (EV "d2")) (EI 0));
 (SStore (EV "mcols") (EBin Add (EBin Add (EBin Mul (EI 21) (EV "nFields")) (EBin Mul (EV "nnz") (EV "d1"))) (EV "d2")) (EI 0));
 (SStore (EV "mcols") (EBin Add (EBin Add (EBin Mul (EI 22) (EV "nFields")) (EBin Mul (EV "nnz") (EV "d1"))) (EV "d2")) (EBin Add (EBin Mul (EBin Add (EV "nn") (EBin Mul (EV "nx") (EV "ny"))) (EV "nFields")) (EV "d2")));
 (SStore (EV "mcols") (EBin Add (EBin Add (EBin Mul (EI 23) (EV "nFields")) (EBin Mul (EV "nnz") (EV "d1"))) (EV "d2")) (EBin Add (EBin Mul (EBin Add (EBin Add (EV "nn") (EBin Mul (EV "nx") (EV "ny"))) (EI 1)) (EV "nFields")) (EV "d2")));
 (SStore (EV "mcols") (EBin Add (EBin Add (EBin Mul (EI 24) (EV "nFields")) (EBin Mul (EV "nnz") (EV "d1"))) (EV "d2")) (EI 0));
 (SStore (EV "mcols") (EBin Add (EBin Add (EBin Mul (EI 25) (EV "nFields")) (EBin Mul (EV "nnz") (EV "d1"))) (EV "d2")) (EBin Add (EBin Mul (EBin Add (EBin Add (EV "nn") (EBin Mul (EV "nx") (EV "ny"))) (EV "nx")) (EV "nFields")) (EV "d2")));
 (SStore (EV "mcols") (EBin Add (EBin Add (EBin Mul (EI 26) (EV "nFields")) (EBin Mul (EV "nnz") (EV "d1"))) (EV "d2")) (EBin Add (EBin Mul (EBin Add (EBin Add (EBin Add (EV "nn") (EBin Mul (EV "nx") (EV "ny"))) (EV "nx")) (EI 1)) (EV "nFields")) (EV "d2")))])))]));
 (SFor "k" (EI 1) (EBin Lt (EV "k") (EBin Sub (EV "nz") (EI 1))) (block [(SSet "nn" (EBin Add (EBin Add (EBin Mul (EBin Mul (EV "k") (EV "nx")) (EV "ny")) (EBin Mul (EI 0) (EV "nx"))) (EBin Sub (EV "nx") (EI 1))));
 (SSet "mcols" (EAdr (EFld (EV "m") "cols") (EBin Mul (EBin Mul (EV "nn") (EV "nFields")) (EV "nnz"))));
 (SFor "d1" (EI 0) (EBin Lt (EV "d1") (EV "nFields")) (SFor "d2" (EI 0) (EBin Lt (EV "d2") (EV "nFields")) (block [(SStore (EV "mcols") (EBin Add (EBin Add (EBin Mul (EI 0) (EV "nFields")) (EBin Mul (EV "nnz") (EV "d1"))) (EV "d2")) (EI 0));
 (SStore (EV "mcols") (EBin Add (EBin Add (EBin Mul (EI 1) (EV "nFields")) (EBin Mul (EV "nnz") (EV "d1"))) (EV "d2")) (EI 0));
 (SStore (EV "mcols") (EBin Add (EBin Add (EBin Mul (EI 2) (EV "nFields")) (EBin Mul (EV "nnz") (EV "d1"))) (EV "d2")) (EI 0));
 (SStore (EV "mcols") (EBin Add (EBin Add (EBin Mul (EI 3) (EV "nFields")) (EBin Mul (EV "nnz") (EV "d1"))) (EV "d2")) (EBin Add (EBin Mul (EBin Sub (EBin Sub (EV "nn") (EBin Mul (EV "nx") (EV "ny"))) (EI 1)) (EV "nFields")) (EV "d2")));
 (SStore (EV "mcols") (EBin Add (EBin Add (EBin Mul (EI 4) (EV "nFields")) (EBin Mul (EV "nnz") (EV "d1"))) (EV "d2")) (EBin Add (EBin Mul (EBin Sub (EV "nn") (EBin Mul (EV "nx") (EV "ny"))) (EV "nFields")) (EV "d2")));
 (SStore (EV "mcols") (EBin Add (EBin Add (EBin Mul (EI 5) (EV "nFields")) (EBin Mul (EV "nnz") (EV "d1"))) (EV "d2")) (EI 0));
 (SStore (EV "mcols") (EBin Add (EBin Add (EBin Mul (EI 6) (EV "nFields")) (EBin Mul (EV "nnz") (EV "d1"))) (EV "d2")) (EBin Add (EBin Mul (EBin Sub (EBin Add (EBin Sub (EV "nn") (EBin Mul (EV "nx") (EV "ny"))) (EV "nx")) (EI 1)) (EV "nFields")) (EV "d2")));
 (SStore (EV "mcols") (EBin Add (EBin Add (EBin Mul (EI 7) (EV "nFields")) (EBin Mul (EV "nnz") (EV "d1"))) (EV "d2")) (EBin Add (EBin Mul (EBin Add (EBin Sub (EV "nn") (EBin Mul (EV "nx") (EV "ny"))) (EV "nx")) (EV "nFields")) (EV "d2")));
 (SStore (EV "mcols") (EBin Add (EBin Add (EBin Mul (EI 8) (EV "nFields")) (EBin Mul (EV "nnz") (EV "d1"))) (EV "d2")) (EI 0));
 (SStore (EV "mcols") (EBin Add (EBin Add (EBin Mul (EI 9) (EV "nFields")) (EBin Mul (EV "nnz") (EV "d1"))) (EV "d2")) (EI 0));
 (SStore (EV "mcols") (EBin Add (EBin Add (EBin Mul (EI 10) (EV "nFields")) (EBin Mul (EV "nnz") (EV "d1"))) (EV "d2")) (EI 0));
 (SStore (EV "mcols") (EBin Add (EBin Add (EBin Mul (EI 11) (EV "nFields")) (EBin Mul (EV "nnz") (EV "d1"))) (EV "d2")) (EI 0));
 (SStore (EV "mcols") (EBin Add (EBin Add (EBin Mul (EI 12) (EV "nFields")) (EBin Mul (EV "nnz") (EV "d1"))) (EV "d2")) (EBin Add (EBin Mul (EBin Sub (EV "nn") (EI 1)) (EV "nFields")) (EV "d2")));
 (SStore (EV "mcols") (EBin Add (EBin Add (EBin Mul (EI 13) (EV "nFields")) (EBin Mul (EV "nnz") (EV "d1"))) (EV "d2")) (EBin Add (EBin Mul (EV "nn") (EV "nFields")) (EV "d2")));
 (SStore (EV "mcols") (EBin Add (EBin Add (EBin Mul (EI 14) (EV "nFields")) (EBin Mul (EV "nnz") (EV "d1"))) (EV "d2")) (EI 0));
 (SStore (EV "mcols") (EBin Add (EBin Add (EBin Mul (EI 15) (EV "nFields")) (EBin Mul (EV "nnz") (EV "d1"))) (EV "d2")) (EBin Add (EBin Mul (EBin Sub (EBin Add (EV "nn") (EV "nx")) (EI 1)) (EV "nFields")) (EV "d2")));
 (SStore (EV "mcols") (EBin Add (EBin Add (EBin Mul (EI 16) (EV "nFields")) (EBin Mul (EV "nnz") (EV "d1"))) (EV "d2")) (EBin Add (EBin Mul (EBin Add (EV "nn") (EV "nx")) (EV "nFields")) (EV "d2")));
 (SStore (EV "mcols") (EBin Add (EBin Add (EBin Mul (EI 17) (EV "nFields")) (EBin Mul (EV "nnz") (EV "d1"))) (EV "d2")) (EI 0));
 (SStore (EV "mcols") (EBin Add (EBin Add (EBin Mul (EI 18) (EV "nFields")) (EBin Mul (EV "nnz") (EV "d1"))) (EV "d2")) (EI 0));
 (SStore (EV "mcols") (EBin Add (EBin Add (EBin Mul (EI 19) (EV "nFields")) (EBin Mul (EV "nnz") (EV "d1"))) (EV "d2")) (EI 0));
 (SStore (EV "mcols") (EBin Add (EBin Add (EBin Mul (EI 20) (EV "nFields")) (EBin Mul (EV "nnz") (EV "d1"))) (EV "d2")) (EI 0));
 (SStore (EV "mcols") (EBin Add (EBin Add (EBin Mul (EI 21) (EV "nFields")) (EBin Mul (EV "nnz") (EV "d1"))) (EV "d2")) (EBin Add (EBin Mul (EBin Sub (EBin Add (EV "nn") (EBin Mul (EV "nx") (EV "ny"))) (EI 1)) (EV "nFields")) (EV "d2")));
 (SStore (EV "mcols") (EBin Add (EBin Add (EBin Mul (EI 22) (EV "nFields")) (EBin Mul (EV "nnz") (EV "d1"))) (EV "d2")) (EBin Add (EBin Mul (EBin Add (EV "nn") (EBin Mul (EV "nx") (EV "ny"))) (EV "nFields")) (EV "d2")));
 (SStore (EV "mcols") (EBin Add (EBin Add (EBin Mul (EI 23) (EV "nFields")) (EBin Mul (EV "nnz") (EV "d1"))) (EV "d2")) (EI 0));
 (SStore (EV "mcols") (EBin Add (EBin Add (EBin Mul (EI 24) (EV "nFields")) (EBin Mul (EV "nnz") (EV "d1"))) (EV "d2")) (EBin Add (EBin Mul (EBin Sub (EBin Add (EBin Add (EV "nn") (EBin Mul (EV "nx") (EV "ny"))) (EV "nx")) (EI 1)) (EV "nFields")) (EV "d2")));
 (SStore (EV "mcols") (EBin Add (EBin Add (EBin Mul (EI 25) (EV "nFields")) (EBin Mul (EV "nnz") (EV "d1"))) (EV "d2")) (EBin Add (EBin Mul (EBin Add (EBin Add (EV "nn") (EBin Mul (EV "nx") (EV "ny"))) (EV "nx")) (EV "nFields")) (EV "d2")));
 (SStore (EV "mcols") (EBin Add (EBin Add (EBin Mul (EI 26) (EV "nFields")) (EBin Mul (EV "nnz") (EV "d1"))) (EV "d2")) (EI 0))])))]));
 (SFor "k" (EI 1) (EBin Lt (EV "k") (EBin Sub (EV "nz") (EI 1))) (block [(SSet "nn" (EBin Add (EBin Add (EBin Mul (EBin Mul (EV "k") (EV "nx")) (EV "ny")) (EBin Mul (EBin Sub (EV "ny") (EI 1)) (EV "nx"))) (EBin Sub (EV "nx") (EI 1))));
 (SSet "mcols" (EAdr (EFld (EV "m") "cols") (EBin Mul (EBin Mul (EV "nn") (EV "nFields")) (EV "nnz"))));
 (SFor "d1" (EI 0) (EBin Lt (EV "d1") (EV "nFields")) (SFor "d2" (EI 0) (EBin Lt (EV "d2") (EV "nFields")) (block [(SStore (EV "mcols") (EBin Add (EBin Add (EBin Mul (EI 0) (EV "nFields")) (EBin Mul (EV "nnz") (EV "d1"))) (EV "d2")) (EBin Add (EBin Mul (EBin Sub (EBin Sub (EBin Sub (EV "nn") (EBin Mul (EV "nx") (EV "ny"))) (EV "nx")) (EI 1)) (EV "nFields")) (EV "d2")));
 (SStore (EV "mcols") (EBin Add (EBin Add (EBin Mul (EI 1) (EV "nFields")) (EBin Mul (EV "nnz") (EV "d1"))) (EV "d2")) (EBin Add (EBin Mul (EBin Sub (EBin Sub (EV "nn") (EBin Mul (EV "nx") (EV "ny"))) (EV "nx")) (EV "nFields")) (EV "d2")));
 (SStore (EV "mcols") (EBin Add (EBin Add (EBin Mul (EI 2) (EV "nFields")) (EBin Mul (EV "nnz") (EV "d1"))) (EV "d2")) (EI 0));
 (SStore (EV "mcols") (EBin Add (EBin Add (EBin Mul (EI 3) (EV "nFields")) (EBin Mul (EV "nnz") (EV "d1"))) (EV "d2")) (EBin Add (EBin Mul (EBin Sub (EBin Sub (EV "nn") (EBin Mul (EV "nx") (EV "ny"))) (EI 1)) (EV "nFields")) (EV "d2")));
 (SStore (EV "mcols") (EBin Add (EBin Add (EBin Mul (EI 4) (EV "nFields")) (EBin Mul (EV "nnz") (EV "d1"))) (EV "d2")) (EBin Add (EBin Mul (EBin Sub (EV "nn") (EBin Mul (EV "nx") (EV "ny"))) (EV "nFields")) (EV "d2")));
 (SStore (EV "mcols") (EBin Add (EBin Add (EBin Mul (EI 5) (EV "nFields")) (EBin Mul (EV "nnz") (EV "d1"))) (EV "d2")) (EI 0));
 (SStore (EV "mcols") (EBin Add (EBin Add (EBin Mul (EI 6) (EV "nFields")) (EBin Mul (EV "nnz") (EV "d1"))) (EV "d2")) (EI 0));
 (SStore (EV "mcols") (EBin Add (EBin Add (EBin Mul (EI 7) (EV "nFields")) (EBin Mul (EV "nnz") (EV "d1"))) (EV "d2")) (EI 0));
 (SStore (EV "mcols") (EBin Add (EBin Add (EBin Mul (EI 8) (EV "nFields")) (EBin Mul (EV "nnz") (EV "d1"))) (EV "d2")) (EI 0));
 (SStore (EV "mcols") (EBin Add (EBin Add (EBin Mul (EI 9) (EV "nFields")) (EBin Mul (EV "nnz") (EV "d1"))) (EV "d2")) (EBin Add (EBin Mul (EBin Sub (EBin Sub (EV "nn") (EV "nx")) (EI 1)) (EV "nFields")) (EV "d2")));
 (SStore (EV "mcols") (EBin Add (EBin Add (EBin Mul (EI 10) (EV "nFields")) (EBin Mul (EV "nnz") (EV "d1"))) (EV "d2")) (EBin Add (EBin Mul (EBin Sub (EV "nn") (EV "nx")) (EV "nFields")) (EV "d2")));
 (SStore (EV "mcols") (EBin Add (EBin Add (EBin Mul (EI 11) (EV "nFields")) (EBin Mul (EV "nnz") (EV "d1"))) (EV "d2")) (EI 0));
 (SStore (EV "mcols") (EBin Add (EBin Add (EBin Mul (EI 12) (EV "nFields")) (EBin Mul (EV "nnz") (EV "d1"))) (EV "d2")) (EBin Add (EBin Mul (EBin Sub (EV "nn") (EI 1)) (EV "nFields")) (EV "d2")));
 (SStore (EV "mcols") (EBin Add (EBin Add (EBin Mul (EI 13) (EV "nFields")) (EBin Mul (EV "nnz") (EV "d1"))) (EV "d2")) (EBin Add (EBin Mul (EV "nn") (EV "nFields")) (EV "d2")));
 (SStore (EV "mcols") (EBin Add (EBin Add (EBin Mul (EI 14) (EV "nFields")) (EBin Mul (EV "nnz") (EV "d1"))) (EV "d2")) (EI 0));
 (SStore (EV "mcols") (EBin Add (EBin Add (EBin Mul (EI 15) (EV "nFields")) (EBin Mul (EV "nnz") (EV "d1"))) (EV "d2")) (EI 0));
 (SStore (EV "mcols") (EBin Add (EBin Add (EBin Mul (EI 16) (EV "nFields")) (EBin Mul (EV "nnz") (EV "d1"))) (EV "d2")) (EI 0));
 (SStore (EV "mcols") (EBin Add (EBin Add (EBin Mul (EI 17) (EV "nFields")) (EBin Mul (EV "nnz") (EV "d1"))) (EV "d2")) (EI 0));
 (SStore (EV "mcols") (EBin Add (EBin Add (EBin Mul (EI 18) (EV "nFields")) (EBin Mul (EV "nnz") (EV "d1"))) (EV "d2")) (EBin Add (EBin Mul (EBin Sub (EBin Sub (EBin Add (EV "nn") (EBin Mul (EV "nx") (EV "ny"))) (EV "nx")) (EI 1)) (EV "nFields")) (EV "d2")));
 (SStore (EV "mcols") (EBin Add (EBin Add (EBin Mul (EI 19) (EV "nFields")) (EBin Mul (EV "nnz") (EV "d1"))) (EV "d2")) (EBin Add (EBin Mul (EBin Sub (EBin Add (EV "nn") (EBin Mul (EV "nx") (EV "ny"))) (EV "nx")) (EV "nFields")) (EV "d2")));
 (SStore (EV "mcols") (EBin Add (EBin Add (EBin Mul (EI 20) (EV "nFields")) (EBin Mul (EV "nnz") (EV "d1"))) (EV "d2")) (EI 0));
 (SStore (EV "mcols") (EBin Add (EBin Add (EBin Mul (EI 21) (EV "nFields")) (EBin Mul (EV "nnz") (EV "d1"))) (EV "d2")) (EBin Add (EBin Mul (EBin Sub (EBin Add (EV "nn") (EBin Mul (EV "nx") (EV "ny"))) (EI 1)) (EV "nFields")) (EV "d2")));
 (SStore (EV "mcols") (EBin Add (EBin Add (EBin Mul (EI 22) (EV "nFields")) (EBin Mul (EV "nnz") (EV "d1"))) (EV "d2")) (EBin Add (EBin Mul (EBin Add (EV "nn") (EBin Mul (EV "nx") (EV "ny"))) (EV "nFields")) (EV "d2")));
 (SStore (EV "mcols") (EBin Add (EBin Add (EBin Mul (EI 23) (EV "nFields")) (EBin Mul (EV "nnz") (EV "d1"))) (EV "d2")) (EI 0));
 (SStore (EV "mcols") (EBin Add (EBin Add (EBin Mul (EI 24) (EV "nFields")) (EBin Mul (EV "nnz") (EV "d1"))) (EV "d2")) (EI 0));
 (SStore (EV "mcols") (EBin Add (EBin Add (EBin Mul (EI 25) (EV "nFields")) (EBin Mul (EV "nnz") (EV "d1"))) (EV "d2")) (EI 0));
 (SStore (EV "mcols") (EBin Add (EBin Add (EBin Mul (EI 26) (EV "nFields")) (EBin Mul (EV "nnz") (EV "d1"))) (EV "d2")) (EI 0))])))]));
 (SFor "k" (EI 1) (EBin Lt (EV "k") (EBin Sub (EV "nz") (EI 1))) (block [(SSet "nn" (EBin Add (EBin Add (EBin Mul (EBin Mul (EV "k") (EV "nx")) (EV "ny")) (EBin Mul (EBin Sub (EV "ny") (EI 1)) (EV "nx"))) (EI 0)));
 (SSet "mcols" (EAdr (EFld (EV "m") "cols") (EBin Mul (EBin Mul (EV "nn") (EV "nFields")) (EV "nnz"))));
 (SFor "d1" (EI 0) (EBin Lt (EV "d1") (EV "nFields")) (SFor "d2" (EI 0) (EBin Lt (EV "d2") (EV "nFields")) (block [(SStore (EV "mcols") (EBin Add (EBin Add (EBin Mul (EI 0) (EV "nFields")) (EBin Mul (EV "nnz") (EV "d1"))) (EV "d2")) (EI 0));
 (SStore (EV "mcols") (EBin Add (EBin Add (EBin Mul (EI 1) (EV "nFields")) (EBin Mul (EV "nnz") (EV "d1"))) (EV "d2")) (EBin Add (EBin Mul (EBin Sub (EBin Sub (EV "nn") (EBin Mul (EV "nx") (EV "ny"))) (EV "nx")) (EV "nFields")) (EV "d2")));
 (SStore (EV "mcols") (EBin Add (EBin Add (EBin Mul (EI 2) (EV "nFields")) (EBin Mul (EV "nnz") (EV "d1"))) (EV "d2")) (EBin Add (EBin Mul (EBin Add (EBin Sub (EBin Sub (EV "nn") (EBin Mul (EV "nx") (EV "ny"))) (EV "nx")) (EI 1)) (EV "nFields")) (EV "d2")));
 (SStore (EV "mcols") (EBin Add (EBin Add (EBin Mul (EI 3) (EV "nFields")) (EBin Mul (EV "nnz") (EV "d1"))) (EV "d2")) (EI 0));
 (SStore (EV "mcols") (EBin Add (EBin Add (EBin Mul (EI 4) (EV "nFields")) (EBin Mul (EV "nnz") (EV "d1"))) (EV "d2")) (EBin Add (EBin Mul (EBin Sub (EV "nn") (EBin Mul (EV "nx") (EV "ny"))) (EV "nFields")) (EV "d2")));
 (SStore (EV "mcols") (EBin Add (EBin Add (EBin Mul (EI 5) (EV "nFields")) (EBin Mul (EV "nnz") (EV "d1"))) (EV "d2")) (EBin Add (EBin Mul (EBin Add (EBin Sub (EV "nn") (EBin Mul (EV "nx") (EV "ny"))) (EI 1)) (EV "nFields")) (EV "d2")));
 (SStore (EV "mcols") (EBin Add (EBin Add (EBin Mul (EI 6) (EV "nFields")) (EBin Mul (EV "nnz") (EV "d1"))) (EV "d2")) (EI 0));
 (SStore (EV "mcols") (EBin Add (EBin Add (EBin Mul (EI 7) (EV "nFields")) (EBin Mul (EV "nnz") (EV "d1"))) (EV "d2")) (EI 0));
 (SStore (EV "mcols") (EBin Add (EBin Add (EBin Mul (EI 8) (EV "nFields")) (EBin Mul (EV "nnz") (EV "d1"))) (EV "d2")) (EI 0));
 (SStore (EV "mcols") (EBin Add (EBin Add (EBin Mul (EI 9) (EV "nFields")) (EBin Mul (EV "nnz") (EV "d1"))) (EV "d2")) (EI 0));
 (SStore (EV "mcols") (EBin Add (EBin Add (EBin Mul (EI 10) (EV "nFields")) (EBin Mul (EV "nnz") (EV "d1"))) (EV "d2")) (EBin Add (EBin Mul (EBin Sub (EV "nn") (EV "nx")) (EV "nFields")) (EV "d2")));
 (SStore (EV "mcols") (EBin Add (EBin Add (EBin Mul (EI 11) (EV "nFields")) (EBin Mul (EV "nnz") (EV "d1"))) (EV "d2")) (EBin Add (EBin Mul (EBin Add (EBin Sub (EV "nn") (EV "nx")) (EI 1)) (EV "nFields")) (EV "d2")));
 (SStore (EV "mcols") (EBin Add (EBin Add (EBin Mul (EI 12) (EV "nFields")) (EBin Mul (EV "nnz") (EV "d1"))) (EV "d2")) (EI 0));
 (SStore (EV "mcols") (EBin Add (EBin Add (EBin Mul (EI 13) (EV "nFields")) (EBin Mul (EV "nnz") (EV "d1"))) (EV "d2")) (EBin Add (EBin Mul (EV "nn") (EV "nFields")) (EV "d2")));
 (SStore (EV "mcols") (EBin Add (EBin Add (EBin Mul (EI 14) (EV "nFields")) (EBin Mul (EV "nnz") (EV "d1"))) (EV "d2")) (EBin Add (EBin Mul (EBin Add (EV "nn") (EI 1)) (EV "nFields")) (EV "d2")));
 (SStore (EV "mcols") (EBin Add (EBin Add (EBin Mul (EI 15) (EV "nFields")) (EBin Mul (EV "nnz") (EV "d1"))) (EV "d2")) (EI 0));
 (SStore (EV "mcols") (EBin Add (EBin Add (EBin Mul (EI 16) (EV "nFields")) (EBin Mul (EV "nnz") (EV "d1"))) (EV "d2")) (EI 0));
 (SStore (EV "mcols") (EBin Add (EBin Add (EBin Mul (EI 17) (EV "nFields")) (EBin Mul (EV "nnz") (EV "d1"))) (EV "d2")) (EI 0));
 (SStore (EV "mcols") (EBin Add (EBin Add (EBin Mul (EI 18) (EV "nFields")) (EBin Mul (EV "nnz") (EV "d1"))) (EV "d2")) (EI 0));
 (SStore (EV "mcols") (EBin Add (EBin Add (EBin Mul (EI 19) (EV "nFields")) (EBin Mul (EV "nnz") (EV "d1"))) (EV "d2")) (EBin Add (EBin Mul (EBin Sub (EBin Add (EV "nn") (EBin Mul (EV "nx") (EV "ny"))) (EV "nx")) (EV "nFields")) (EV "d2")));
 (SStore (EV "mcols") (EBin Add (EBin Add (EBin Mul (EI 20) (EV "nFields")) (EBin Mul (EV "nnz") (EV "d1"))) (EV "d2")) (EBin Add (EBin Mul (EBin Add (EBin Sub (EBin Add (EV "nn") (EBin Mul (EV "nx") (EV "ny"))) (EV "nx")) (EI 1)) (EV "nFields")) (EV "d2")));
 (SStore (EV "mcols") (EBin Add (EBin Add (EBin Mul (EI 21) (EV "nFields")) (EBin Mul (EV "nnz") (EV "d1"))) (EV "d2")) (EI 0));
 (SStore (EV "mcols") (EBin Add (EBin Add (EBin Mul (EI 22) (EV "nFields")) (EBin Mul (EV "nnz") (EV "d1"))) (EV "d2")) (EBin Add (EBin Mul (EBin Add (EV "nn") (EBin Mul (EV "nx") (EV "ny"))) (EV "nFields")) (EV "d2")));
 (SStore (EV "mcols") (EBin Add (EBin Add (EBin Mul (EI 23) (EV "nFields")) (EBin Mul (EV "nnz") (EV "d1"))) (EV "d2")) (EBin Add (EBin Mul (EBin Add (EBin Add (EV "nn") (EBin Mul (EV "nx") (EV "ny"))) (EI 1)) (EV "nFields")) (EV "d2")));
 (SStore (EV "mcols") (EBin Add (EBin Add (EBin Mul (EI 24) (EV "nFields")) (EBin Mul (EV "nnz") (EV "d1"))) (EV "d2")) (EI 0));
 (SStore (EV "mcols") (EBin Add (EBin Add (EBin Mul (EI 25) (EV "nFields")) (EBin Mul (EV "nnz") (EV "d1"))) (EV "d2")) (EI 0));
 (SStore (EV "mcols") (EBin Add (EBin Add (EBin Mul (EI 26) (EV "nFields")) (EBin Mul (EV "nnz") (EV "d1"))) (EV "d2")) (EI 0))])))]));
 (SFor "i" (EI 1) (EBin Lt (EV "i") (EBin Sub (EV "nx") (EI 1))) (block [(SSet "nn" (EBin Add (EBin Add (EBin Mul (EBin Mul (EI 0) (EV "nx")) (EV "ny")) (EBin Mul (EI 0) (EV "nx"))) (EV "i")));
 (SSet "mcols" (EAdr (EFld (EV "m") "cols") (EBin Mul (EBin Mul (EV "nn") (EV "nFields")) (EV "nnz"))));
 (SFor "d1" (EI 0) (EBin Lt (EV "d1") (EV "nFields")) (SFor "d2" (EI 0) (EBin Lt (EV "d2") (EV "nFields")) (block [(SStore (EV "mcols") (EBin Add (EBin Add (EBin Mul (EI 0) (EV "nFields")) (EBin Mul (EV "nnz") (EV "d1"))) (EV "d2")) (EI 0));
 (SStore (EV "mcols") (EBin Add (EBin Add (EBin Mul (EI 1) (EV "nFields")) (EBin Mul (EV "nnz") (EV "d1"))) (EV "d2")) (EI 0));
 (SStore (EV "mcols") (EBin Add (EBin Add (EBin Mul (EI 2) (EV "nFields")) (EBin Mul (EV "nnz") (EV "d1"))) (EV "d2")) (EI 0));
 (SStore (EV "mcols") (EBin Add (EBin Add (EBin Mul (EI 3) (EV "nFields")) (EBin Mul (EV "nnz") (EV "d1"))) (EV "d2")) (EI 0));
 (SStore (EV "mcols") (EBin Add (EBin Add (EBin Mul (EI 4) (EV "nFields")) (EBin Mul (EV "nnz") (EV "d1"))) (EV "d2")) (EI 0));
 (SStore (EV "mcols") (EBin Add (EBin Add (EBin Mul (EI 5) (EV "nFields")) (EBin Mul (EV "nnz") (EV "d1"))) (EV "d2")) (EI 0));
 (SStore (EV "mcols") (EBin Add (EBin Add (EBin Mul (EI 6) (EV "nFields")) (EBin Mul (EV "nnz") (EV "d1"))) (EV "d2")) (EI 0));
 (SStore (EV "mcols") (EBin Add (EBin Add (EBin Mul (EI 7) (EV "nFields")) (EBin Mul (EV "nnz") (EV "d1"))) (EV "d2")) (EI 0));
 (SStore (EV "mcols") (EBin Add (EBin Add (EBin Mul (EI 8) (EV "nFields")) (EBin Mul (EV "nnz") (EV "d1"))) (EV "d2")) (EI 0));
 (SStore (EV "mcols") (EBin Add (EBin Add (EBin Mul (EI 9) (EV "nFields")) (EBin Mul (EV "nnz") (EV "d1"))) (EV "d2")) (EI 0));
 (SStore (EV "mcols") (EBin Add (EBin Add (EBin Mul (EI 10) (EV "nFields")) (EBin Mul (EV "nnz") (EV "d1"))) (EV "d2")) (EI 0));
 (SStore (EV "mcols") (EBin Add (EBin Add (EBin Mul (EI 11) (EV "nFields")) (EBin Mul (EV "nnz") (EV "d1"))) (EV "d2")) (EI 0));
 (SStore (EV "mcols") (EBin Add (EBin Add (EBin Mul (EI 12) (EV "nFields")) (EBin Mul (EV "nnz") (EV "d1"))) (EV "d2")) (EBin Add (EBin Mul (EBin Sub (EV "nn") (EI 1)) (EV "nFields")) (EV "d2")));
 (SStore (EV "mcols") (EBin Add (EBin Add (EBin Mul (EI 13) (EV "nFields")) (EBin Mul (EV "nnz") (EV "d1"))) (EV "d2")) (EBin Add (EBin Mul (EV "nn") (EV "nFields")) (EV "d2")));
 (SStore (EV "mcols") (EBin Add (EBin Add (EBin Mul (EI 14) (EV "nFields")) (EBin Mul (EV "nnz") (EV "d1"))) (EV "d2")) (EBin Add (EBin Mul (EBin Add (EV "nn") (EI 1)) (EV "nFields")) (EV "d2")));
 (SStore (EV "mcols") (EBin Add (EBin Add (EBin Mul (EI 15) (EV "nFields")) (EBin Mul (EV "nnz") (EV "d1"))) (EV "d2")) (EBin Add (EBin Mul (EBin Sub (EBin Add (EV "nn") (EV "nx")) (EI 1)) (EV "nFields")) (EV "d2")));
 (SStore (EV "mcols") (EBin Add (EBin Add (EBin Mul (EI 16) (EV "nFields")) (EBin Mul (EV "nnz") (EV "d1"))) (EV "d2")) (EBin Add (EBin Mul (EBin Add (EV "nn") (EV "nx")) (EV "nFields")) (EV "d2")));
 (SStore (EV "mcols") (EBin Add (EBin Add (EBin Mul (EI 17) (EV "nFields")) (EBin Mul (EV "nnz") (EV "d1"))) (EV "d2")) (EBin Add (EBin Mul (EBin Add (EBin Add (EV "nn") (EV "nx")) (EI 1)) (EV "nFields")) (EV "d2")));
 (SStore (EV "mcols") (EBin Add (EBin Add (EBin Mul (EI 18) (EV "nFields")) (EBin Mul (EV "nnz") (EV "d1"))) (EV "d2")) (EI 0));
 (SStore (EV "mcols") (EBin Add (EBin Add (EBin Mul (EI 19) (EV "nFields")) (EBin Mul (EV "nnz") (EV "d1"))) (EV "d2")) (EI 0));
 (SStore (EV "mcols") (EBin Add (EBin Add (EBin Mul (EI 20) (EV "nFields")) (EBin Mul (EV "nnz") (EV "d1"))) (EV "d2")) (EI 0));
 (SStore (EV "mcols") (EBin Add (EBin Add (EBin Mul (EI 21) (EV "nFields")) (EBin Mul (EV "nnz") (EV "d1"))) (EV "d2")) (EBin Add (EBin Mul (EBin Sub (EBin Add (EV "nn") (EBin Mul (EV "nx") (EV "ny"))) (EI 1)) (EV "nFields")) (EV "d2")));
 (SStore (EV "mcols") (EBin Add (EBin Add (EBin Mul (EI 22) (EV "nFields")) (EBin Mul (EV "nnz") (EV "d1"))) (EV "d2")) (EBin Add (EBin Mul (EBin Add (EV "nn") (EBin Mul (EV "nx") (EV "ny"))) (EV "nFields")) (EV "d2")));
 (SStore (EV "mcols") (EBin Add (EBin Add (EBin Mul (EI 23) (EV "nFields")) (EBin Mul (EV "nnz") (EV "d1"))) (EV "d2")) (EBin Add (EBin Mul (EBin Add (EBin Add (EV "nn") (EBin Mul (EV "nx") (EV "ny"))) (EI 1)) (EV "nFields")) (EV "d2")));
 (SStore (EV "mcols") (EBin Add (EBin Add (EBin Mul (EI 24) (EV "nFields")) (EBin Mul (EV "nnz") (EV "d1"))) (EV "d2")) (EBin Add (EBin Mul (EBin Sub (EBin Add (EBin Add (EV "nn") (EBin Mul (EV "nx") (EV "ny"))) (EV "nx")) (EI 1)) (EV "nFields")) (EV "d2")));
 (SStore (EV "mcols") (EBin Add (EBin Add (EBin Mul (EI 25) (EV "nFields")) (EBin Mul (EV "nnz") (EV "d1"))) (EV "d2")) (EBin Add (EBin Mul (EBin Add (EBin Add (EV "nn") (EBin Mul (EV "nx") (EV "ny"))) (EV "nx")) (EV "nFields")) (EV "d2")));
 (SStore (EV "mcols") (EBin Add (EBin Add (EBin Mul (EI 26) (EV "nFields")) (EBin Mul (EV "nnz") (EV "d1"))) (EV "d2")) (EBin Add (EBin Mul (EBin Add (EBin Add (EBin Add (EV "nn") (EBin Mul (EV "nx") (EV "ny"))) (EV "nx")) (EI 1)) (EV "nFields")) (EV "d2")))])))]));
 (SFor "i" (EI 1) (EBin Lt (EV "i") (EBin Sub (EV "nx") (EI 1))) (block [(SSet "nn" (EBin Add (EBin Add (EBin Mul (EBin Mul (EI 0) (EV "nx")) (EV "ny")) (EBin Mul (EBin Sub (EV "ny") (EI 1)) (EV "nx"))) (EV "i")));
 (SSet "mcols" (EAdr (EFld (EV "m") "cols") (EBin Mul (EBin Mul (EV "nn") (EV "nFields")) (EV "nnz"))));
 (SFor "d1" (EI 0) (EBin Lt (EV "d1") (EV "nFields")) (SFor "d2" (EI 0) (EBin Lt (EV "d2") (EV "nFields")) (block [(SStore (EV "mcols") (EBin Add (EBin Add (EBin Mul (EI 0) (EV "nFields")) (EBin Mul (EV "nnz") (EV "d1"))) (EV "d2")) (EI 0));
 (SStore (EV "mcols") (EBin Add (EBin Add (EBin Mul (EI 1) (EV "nFields")) (EBin Mul (EV "nnz") (EV "d1"))) (EV "d2")) (EI 0));
 (SStore (EV "mcols") (EBin Add (EBin Add (EBin Mul (EI 2) (EV "nFields")) (EBin Mul (EV "nnz") (EV "d1"))) (EV "d2")) (EI 0));
 (SStore (EV "mcols") (EBin Add (EBin Add (EBin Mul (EI 3) (EV "nFields")) (EBin Mul (EV "nnz") (EV "d1"))) (EV "d2")) (EI 0));
 (SStore (EV "mcols") (EBin Add (EBin Add (EBin Mul (EI 4) (EV "nFields")) (EBin Mul (EV "nnz") (EV "d1"))) (EV "d2")) (EI 0));
 (SStore (EV "mcols") (EBin Add (EBin Add (EBin Mul (EI 5) (EV "nFields")) (EBin Mul (EV "nnz") (EV "d1"))) (EV "d2")) (EI 0));
 (SStore (EV "mcols") (EBin Add (EBin Add (EBin Mul (EI 6) (EV "nFields")) (EBin Mul (EV "nnz") (EV "d1"))) (EV "d2")) (EI 0));
 (SStore (EV "mcols") (EBin Add (EBin Add (EBin Mul (EI 7) (EV "nFields")) (EBin Mul (EV "nnz") (EV "d1"))) (EV "d2")) (EI 0));
 (SStore (EV "mcols") (EBin Add (EBin Add (EBin Mul (EI 8) (EV "nFields")) (EBin Mul (EV "nnz") (EV "d1"))) (EV "d2")) (EI 0));
 (SStore (EV "mcols") (EBin Add (EBin Add (EBin Mul (EI 9) (EV "nFields")) (EBin Mul (EV "nnz") (EV "d1"))) (EV "d2")) (EBin Add (EBin Mul (EBin Sub (EBin Sub (EV "nn") (EV "nx")) (EI 1)) (EV "nFields")) (EV "d2")));
 (SStore (EV "mcols") (EBin Add (EBin Add (EBin Mul (EI 10) (EV "nFields")) (EBin Mul (EV "nnz") (EV "d1"))) (EV "d2")) (EBin Add (EBin Mul (EBin Sub (EV "nn") (EV "nx")) (EV "nFields")) (EV "d2")));
 (SStore (EV "mcols") (EBin Add (EBin Add (EBin Mul (EI 11) (EV "nFields")) (EBin Mul (EV "nnz") (EV "d1"))) (EV "d2")) (EBin Add (EBin Mul (EBin Add (EBin Sub (EV "nn") (EV "nx")) (EI 1)) (EV "nFields")) (EV "d2")));
 (SStore (EV "mcols") (EBin Add (EBin Add (EBin Mul (EI 12) (EV "nFields")) (EBin Mul (EV "nnz") (EV "d1"))) (EV "d2")) (EBin Add (EBin Mul (EBin Sub (EV "nn") (EI 1)) (EV "nFields")) (EV "d2")));
 (SStore (EV "mcols") (EBin Add (EBin Add (EBin Mul (EI 13) (EV "nFields")) (EBin Mul (EV "nnz") (EV "d1"))) (EV "d2")) (EBin Add (EBin Mul (EV "nn") (EV "nFields")) (EV "d2")));
 (SStore (EV "mcols") (EBin Add (EBin Add (EBin Mul (EI 14) (EV "nFields")) (EBin Mul (EV "nnz") (EV "d1"))) (EV "d2")) (EBin Add (EBin Mul (EBin Add (EV "nn") (EI 1)) (EV "nFields")) (EV "d2")));
 (SStore (EV "mcols") (EBin Add (EBin Add (EBin Mul (EI 15) (EV "nFields")) (EBin Mul (EV "nnz") (EV "d1"))) (EV "d2")) (EI 0));
 (SStore (EV "mcols") (EBin Add (EBin Add (EBin Mul (EI 16) (EV "nFields")) (EBin Mul (EV "nnz") (EV "d1"))) (EV "d2")) (EI 0));
 (SStore (EV "mcols") (EBin Add (EBin Add (EBin Mul (EI 17) (EV "nFields")) (EBin Mul (EV "nnz") (EV "d1"))) (EV "d2")) (EI 0));
 (SStore (EV "mcols") (EBin Add (EBin Add (EBin Mul (EI 18) (EV "nFields")) (EBin Mul (EV "nnz") (EV "d1"))) (EV "d2")) (EBin Add (EBin Mul (EBin Sub (EBin Sub (EBin Add (EV "nn") (EBin Mul (EV "nx") (EV "ny"))) (EV "nx")) (EI 1)) (EV "nFields")) (EV "d2")));
 (SStore (EV "mcols") (EBin Add (EBin Add (EBin Mul (EI 19) (EV "nFields")) (EBin Mul (EV "nnz") (EV "d1"))) (EV "d2")) (EBin Add (EBin Mul (EBin Sub (EBin Add (EV "nn") (EBin Mul (EV "nx") (EV "ny"))) (EV "nx")) (EV "nFields")) (EV "d2")));
 (SStore (EV "mcols") (EBin Add (EBin Add (EBin Mul (EI 20) (EV "nFields")) (EBin Mul (EV "nnz") (EV "d1"))) (EV "d2")) (EBin Add (EBin Mul (EBin Add (EBin Sub (EBin Add (EV "nn") (EBin Mul (EV "nx") (EV "ny"))) (EV "nx")) (EI 1)) (EV "nFields")) (EV "d2")));
 (SStore (EV "mcols") (EBin Add (EBin Add (EBin Mul (EI 21) (EV "nFields")) (EBin Mul (EV "nnz") (EV "d1"))) (EV "d2")) (EBin Add (EBin Mul (EBin Sub (EBin Add (EV "nn") (EBin Mul (EV "nx") (EV "ny"))) (EI 1)) (EV "nFields")) (EV "d2")));
 (SStore (EV "mcols") (EBin Add (EBin Add (EBin Mul (EI 22) (EV "nFields")) (EBin Mul (EV "nnz") (EV "d1"))) (EV "d2")) (EBin Add (EBin Mul (EBin Add (EV "nn") (EBin Mul (EV "nx") (EV "ny"))) (EV "nFields")) (EV "d2")));
 (SStore (EV "mcols") (EBin Add (EBin Add (EBin Mul (EI 23) (EV "nFields")) (EBin Mul (EV "nnz") (EV "d1"))) (EV "d2")) (EBin Add (EBin Mul (EBin Add (EBin Add (EV "nn") (EBin Mul (EV "nx") (EV "ny"))) (EI 1)) (EV "nFields")) (EV "d2")));
 (SStore (EV "mcols") (EBin Add (EBin Add (EBin Mul (EI 24) (EV "nFields")) (EBin Mul (EV "nnz") (EV "d1"))) (EV "d2")) (EI 0));
 (SStore (EV "mcols") (EBin Add (EBin Add (EBin Mul (EI 25) (EV "nFields")) (EBin Mul (EV "nnz") (EV "d1"))) (EV "d2")) (EI 0));
 (SStore (EV "mcols") (EBin Add (EBin Add (EBin Mul (EI 26) (EV "nFields")) (EBin Mul (EV "nnz") (EV "d1"))) (EV "d2")) (EI 0))])))]));
 (SFor "i" (EI 1) (EBin Lt (EV "i") (EBin Sub (EV "nx") (EI 1))) (block [(SSet "nn" (EBin Add (EBin Add (EBin Mul (EBin Mul (EBin Sub (EV "nz") (EI 1)) (EV "nx")) (EV "ny")) (EBin Mul (EBin Sub (EV "ny") (EI 1)) (EV "nx"))) (EV "i")));
 (SSet "mcols" (EAdr (EFld (EV "m") "cols") (EBin Mul (EBin Mul (EV "nn") (EV "nFields")) (EV "nnz"))));
 (SFor "d1" (EI 0) (EBin Lt (EV "d1") (EV "nFields")) (SFor "d2" (EI 0) (EBin Lt (EV "d2") (EV "nFields")) (block [(SStore (EV "mcols") (EBin Add (EBin Add (EBin Mul (EI 0) (EV "nFields")) (EBin Mul (EV "nnz") (EV "d1"))) (EV "d2")) (EBin Add (EBin Mul (EBin Sub (EBin Sub (EBin Sub (EV "nn") (EBin Mul (EV "nx") (EV "ny"))) (EV "nx")) (EI 1)) (EV "nFields")) (EV "d2")));
 (SStore (EV "mcols") (EBin Add (EBin Add (EBin Mul (EI 1) (EV "nFields")) (EBin Mul (EV "nnz") (EV "d1"))) (EV "d2")) (EBin Add (EBin Mul (EBin Sub (EBin Sub (EV "nn") (EBin Mul (EV "nx") (EV "ny"))) (EV "nx")) (EV "nFields")) (EV "d2")));
 (SStore (EV "mcols") (EBin Add (EBin Add (EBin Mul (EI 2) (EV "nFields")) (EBin Mul (EV "nnz") (EV "d1"))) (EV "d2")) (EBin Add (EBin Mul (EBin Add (EBin Sub (EBin Sub (EV "nn") (EBin Mul (EV "nx") (EV "ny"))) (EV "nx")) (EI 1)) (EV "nFields")) (EV "d2")));
 (SStore (EV "mcols") (EBin Add (EBin Add (EBin Mul (EI 3) (EV "nFields")) (EBin Mul (EV "nnz") (EV "d1"))) (EV "d2")) (EBin Add (EBin Mul (EBin Sub (EBin Sub (EV "nn") (EBin Mul (EV "nx") (EV "ny"))) (EI 1)) (EV "nFields")) (EV "d2")));
 (SStore (EV "mcols") (EBin Add (EBin Add (EBin Mul (EI 4) (EV "nFields")) (EBin Mul (EV "nnz") (EV "d1"))) (EV "d2")) (EBin Add (EBin Mul (EBin Sub (EV "nn") (EBin Mul (EV "nx") (EV "ny"))) (EV "nFields")) (EV "d2")));
 (SStore (EV "mcols") (EBin Add (EBin Add (EBin Mul (EI 5) (EV "nFields")) (EBin Mul (EV "nnz") (EV "d1"))) (EV "d2")) (EBin Add (EBin Mul (EBin Add (EBin Sub (EV "nn") (EBin Mul (EV "nx") (EV "ny"))) (EI 1)) (EV "nFields")) (EV "d2")));
 (SStore (EV "mcols") (EBin Add (EBin Add (EBin Mul (EI 6) (EV "nFields")) (EBin Mul (EV "nnz") (EV "d1"))) (EV "d2")) (EI 0));
 (SStore (EV "mcols") (EBin Add (EBin Add (EBin Mul (EI 7) (EV "nFields")) (EBin Mul (EV "nnz") (EV "d1"))) (EV "d2")) (EI 0));
 (SStore (EV "mcols") (EBin Add (EBin Add (EBin Mul (EI 8) (EV "nFields")) (EBin Mul (EV "nnz") (EV "d1"))) (EV "d2")) (EI 0));
 (SStore (EV "mcols") (EBin Add (EBin Add (EBin Mul (EI 9) (EV "nFields")) (EBin Mul (EV "nnz") (EV "d1"))) (EV "d2")) (EBin Add (EBin Mul (EBin Sub (EBin Sub (EV "nn") (EV "nx")) (EI 1)) (EV "nFields")) (EV "d2")));
 (SStore (EV "mcols") (EBin Add (EBin Add (EBin Mul (EI 10) (EV "nFields")) (EBin Mul (EV "nnz") (EV "d1"))) (EV "d2")) (EBin Add (EBin Mul (EBin Sub (EV "nn") (EV "nx")) (EV "nFields")) (EV "d2")));
 (SStore (EV "mcols") (EBin Add (EBin Add (EBin Mul (EI 11) (EV "nFields")) (EBin Mul (EV "nnz") (EV "d1"))) (EV "d2")) (EBin Add (EBin Mul (EBin Add (EBin Sub (EV "nn") (EV "nx")) (EI 1)) (EV "nFields")) (EV "d2")));
 (SStore (EV "mcols") (EBin Add (EBin Add (EBin Mul (EI 12) (EV "nFields")) (EBin Mul (EV "nnz") (EV "d1"))) (EV "d2")) (EBin Add (EBin Mul (EBin Sub (EV "nn") (EI 1)) (EV "nFields")) (EV "d2")));
 (SStore (EV "mcols") (EBin Add (EBin Add (EBin Mul (EI 13) (EV "nFields")) (EBin Mul (EV "nnz") (EV "d1"))) (EV "d2")) (EBin Add (EBin Mul (EV "nn") (EV "nFields")) (EV "d2")));
 (SStore (EV "mcols") (EBin Add (EBin Add (EBin Mul (EI 14) (EV "nFields")) (EBin Mul (EV "nnz") (EV "d1"))) (EV "d2")) (EBin Add (EBin Mul (EBin Add (EV "nn") (EI 1)) (EV "nFields")) (EV "d2")));
 (SStore (EV "mcols") (EBin Add (EBin Add (EBin Mul (EI 15) (EV "nFields")) (EBin Mul (EV "nnz") (EV "d1"))) (EV "d2")) (EI 0));
 (SStore (EV "mcols") (EBin Add (EBin Add (EBin Mul (EI 16) (EV "nFields")) (EBin Mul (EV "nnz") (EV "d1"))) (EV "d2")) (EI 0));
 (SStore (EV "mcols") (EBin Add (EBin Add (EBin Mul (EI 17) (EV "nFields")) (EBin Mul (EV "nnz") (EV "d1"))) (EV "d2")) (EI 0));
 (SStore (EV "mcols") (EBin Add (EBin Add (EBin Mul (EI 18) (EV "nFields")) (EBin Mul (EV "nnz") (EV "d1"))) (EV "d2")) (EI 0));
 (SStore (EV "mcols") (EBin Add (EBin Add (EBin Mul (EI 19) (EV "nFields")) (EBin Mul (EV "nnz") (EV "d1"))) (EV "d2")) (EI 0));
 (SStore (EV "mcols") (EBin Add (EBin Add (EBin Mul (EI 20) (EV "nFields")) (EBin Mul (EV "nnz") (EV "d1"))) (EV "d2")) (EI 0));
 (SStore (EV "mcols") (EBin Add (EBin Add (EBin Mul (EI 21) (EV "nFields")) (EBin Mul (EV "nnz") (EV "d1"))) (EV "d2")) (EI 0));
 (SStore (EV "mcols") (EBin Add (EBin Add (EBin Mul (EI 22) (EV "nFields")) (EBin Mul (EV "nnz") (EV "d1"))) (EV "d2")) (EI 0));
 (SStore (EV "mcols") (EBin Add (EBin Add (EBin Mul (EI 23) (EV "nFields")) (EBin Mul (EV "nnz") (EV "d1"))) (EV "d2")) (EI 0));
 (SStore (EV "mcols") (EBin Add (EBin Add (EBin Mul (EI 24) (EV "nFields")) (EBin Mul (EV "nnz") (EV "d1"))) (EV "d2")) (EI 0));
 (SStore (EV "mcols") (EBin Add (EBin Add (EBin Mul (EI 25) (EV "nFields")) (EBin Mul (EV "nnz") (EV "d1"))) (EV "d2")) (EI 0));
 (SStore (EV "mcols") (EBin Add (EBin Add (EBin Mul (EI 26) (EV "nFields")) (EBin Mul (EV "nnz") (EV "d1"))) (EV "d2")) (EI 0))])))]));
 (SFor "i" (EI 1) (EBin Lt (EV "i") (EBin Sub (EV "nx") (EI 1))) (block [(SSet "nn" (EBin Add (EBin Add (EBin Mul (EBin Mul (EBin Sub (EV "nz") (EI 1)) (EV "nx")) (EV "ny")) (EBin Mul (EI 0) (EV "nx"))) (EV "i")));
 (SSet "mcols" (EAdr (EFld (EV "m") "cols") (EBin Mul (EBin Mul (EV "nn") (EV "nFields")) (EV "nnz"))));
 (SFor "d1" (EI 0) (EBin Lt (EV "d1") (EV "nFields")) (SFor "d2" (EI 0) (EBin Lt (EV "d2") (EV "nFields")) (block [(SStore (EV "mcols") (EBin Add (EBin Add (EBin Mul (EI 0) (EV "nFields")) (EBin Mul (EV "nnz") (EV "d1"))) (EV "d2")) (EI 0));
 (SStore (EV "mcols") (EBin Add (EBin Add (EBin Mul (EI 1) (EV "nFields")) (EBin Mul (EV "nnz") (EV "d1"))) (EV "d2")) (EI 0));
 (SStore (EV "mcols") (EBin Add (EBin Add (EBin Mul (EI 2) (EV "nFields")) (EBin Mul (EV "nnz") (EV "d1"))) (EV "d2")) (EI 0));
 (SStore (EV "mcols") (EBin Add (EBin Add (EBin Mul (EI 3) (EV "nFields")) (EBin Mul (EV "nnz") (EV "d1"))) (EV "d2")) (EBin Add (EBin Mul (EBin Sub (EBin Sub (EV "nn") (EBin Mul (EV "nx") (EV "ny"))) (EI 1)) (EV "nFields")) (EV "d2")));
 (SStore (EV "mcols") (EBin Add (EBin Add (EBin Mul (EI 4) (EV "nFields")) (EBin Mul (EV "nnz") (EV "d1"))) (EV "d2")) (EBin Add (EBin Mul (EBin Sub (EV "nn") (EBin Mul (EV "nx") (EV "ny"))) (EV "nFields")) (EV "d2")));
 (SStore (EV "mcols") (EBin Add (EBin Add (EBin Mul (EI 5) (EV "nFields")) (EBin Mul (EV "nnz") (EV "d1"))) (EV "d2")) (EBin Add (EBin Mul (EBin Add (EBin Sub (EV "nn") (EBin Mul (EV "nx") (EV "ny"))) (EI 1)) (EV "nFields")) (EV "d2")));
 (SStore (EV "mcols") (EBin Add (EBin Add (EBin Mul (EI 6) (EV "nFields")) (EBin Mul (EV "nnz") (EV "d1"))) (EV "d2")) (EBin Add (EBin Mul (EBin Sub (EBin Add (EBin Sub (EV "nn") (EBin Mul (EV "nx") (EV "ny"))) (EV "nx")) (EI 1)) (EV "nFields")) (EV "d2")));
 (SStore (EV "mcols") (EBin Add (EBin Add (EBin Mul (EI 7) (EV "nFields")) (EBin Mul (EV "nnz") (EV "d1"))) (EV "d2")) (EBin Add (EBin Mul (EBin Add (EBin Sub (EV "nn") (EBin Mul (EV "nx") (EV "ny"))) (EV "nx")) (EV "nFields")) (EV "d2")));
 (SStore (EV "mcols") (EBin Add (EBin Add (EBin Mul (EI 8) (EV "nFields")) (EBin Mul (EV "nnz") (EV "d1"))) (EV "d2")) (EBin Add (EBin Mul (EBin Add (EBin Add (EBin Sub (EV "nn") (EBin Mul (EV "nx") (EV "ny"))) (EV "nx")) (EI 1)) (EV "nFields")) (EV "d2")));
 (SStore (EV "mcols") (EBin Add (EBin Add (EBin Mul (EI 9) (EV "nFields")) (EBin Mul (EV "nnz") (EV "d1"))) (EV "d2")) (EI 0));
 (SStore (EV "mcols") (EBin Add (EBin Add (EBin Mul (EI 10) (EV "nFields")) (EBin Mul (EV "nnz") (EV "d1"))) (EV "d2")) (EI 0));
 (SStore (EV "mcols") (EBin Add (EBin Add (EBin Mul (EI 11) (EV "nFields")) (EBin Mul (EV "nnz") (EV "d1"))) (EV "d2")) (EI 0));
 (SStore (EV "mcols") (EBin Add (EBin Add (EBin Mul (EI 12) (EV "nFields")) (EBin Mul (EV "nnz") (EV "d1"))) (EV "d2")) (EBin Add (EBin Mul (EBin Sub (EV "nn") (EI 1)) (EV "nFields")) (EV "d2")));
 (SStore (EV "mcols") (EBin Add (EBin Add (EBin Mul (EI 13) (EV "nFields")) (EBin Mul (EV "nnz") (EV "d1"))) (EV "d2")) (EBin Add (EBin Mul (EV "nn") (EV "nFields")) (EV "d2")));
 (SStore (EV "mcols") (EBin Add (EBin Add (EBin Mul (EI 14) (EV "nFields")) (EBin Mul (EV "nnz") (EV "d1"))) (EV "d2")) (EBin Add (EBin Mul (EBin Add (EV "nn") (EI 1)) (EV "nFields")) (EV "d2")));
 (SStore (EV "mcols") (EBin Add (EBin Add (EBin Mul (EI 15) (EV "nFields")) (EBin Mul (EV "nnz") (EV "d1"))) (EV "d2")) (EBin Add (EBin Mul (EBin Sub (EBin Add (EV "nn") (EV "nx")) (EI 1)) (EV "nFields")) (EV "d2")));
 (SStore (EV "mcols") (EBin Add (EBin Add (EBin Mul (EI 16) (EV "nFields")) (EBin Mul (EV "nnz") (EV "d1"))) (EV "d2")) (EBin Add (EBin Mul (EBin Add (EV "nn") (EV "nx")) (EV "nFields")) (EV "d2")));
 (SStore (EV "mcols") (EBin Add (EBin Add (EBin Mul (EI 17) (EV "nFields")) (EBin Mul (EV "nnz") (EV "d1"))) (EV "d2")) (EBin Add (EBin Mul (EBin Add (EBin Add (EV "nn") (EV "nx")) (EI 1)) (EV "nFields")) (EV "d2")));
 (SStore (EV "mcols") (EBin Add (EBin Add (EBin Mul (EI 18) (EV "nFields")) (EBin Mul (EV "nnz") (EV "d1"))) (EV "d2")) (EI 0));
 (SStore (EV "mcols") (EBin Add (EBin Add (EBin Mul (EI 19) (EV "nFields")) (EBin Mul (EV "nnz") (EV "d1"))) (EV "d2")) (EI 0));
 (SStore (EV "mcols") (EBin Add (EBin Add (EBin Mul (EI 20) (EV "nFields")) (EBin Mul (EV "nnz") (EV "d1"))) (EV "d2")) (EI 0));
 (SStore (EV "mcols") (EBin Add (EBin Add (EBin Mul (EI 21) (EV "nFields")) (EBin Mul (EV "nnz") (EV "d1"))) (EV "d2")) (EI 0));
 (SStore (EV "mcols") (EBin Add (EBin Add (EBin Mul (EI 22) (EV "nFields")) (EBin Mul (EV "nnz") (EV "d1"))) (EV "d2")) (EI 0));
 (SStore (EV "mcols") (EBin Add (EBin Add (EBin Mul (EI 23) (EV "nFields")) (EBin Mul (EV "nnz") (EV "d1"))) (EV "d2")) (EI 0));
 (SStore (EV "mcols") (EBin Add (EBin Add (EBin Mul (EI 24) (EV "nFields")) (EBin Mul (EV "nnz") (EV "d1"))) (EV "d2")) (EI 0));
 (SStore (EV "mcols") (EBin Add (EBin Add (EBin Mul (EI 25) (EV "nFields")) (EBin Mul (EV "nnz") (EV "d1"))) (EV "d2")) (EI 0));
 (SStore (EV "mcols") (EBin Add (EBin Add (EBin Mul (EI 26) (EV "nFields")) (EBin Mul (EV "nnz") (EV "d1"))) (EV "d2")) (EI 0))])))]));
 (SFor "j" (EI 1) (EBin Lt (EV "j") (EBin Sub (EV "ny") (EI 1))) (block [(SSet "nn" (EBin Add (EBin Add (EBin Mul (EBin Mul (EI 0) (EV "nx")) (EV "ny")) (EBin Mul (EV "j") (EV "nx"))) (EI 0)));
 (SSet "mcols" (EAdr (EFld (EV "m") "cols") (EBin Mul (EBin Mul (EV "nn") (EV "nFields")) (EV "nnz"))));
 (SFor "d1" (EI 0) (EBin Lt (EV "d1") (EV "nFields")) (SFor "d2" (EI 0) (EBin Lt (EV "d2") (EV "nFields")) (block [(SStore (EV "mcols") (EBin Add (EBin Add (EBin Mul (EI 0) (EV "nFields")) (EBin Mul (EV "nnz") (EV "d1"))) (EV "d2")) (EI 0));
 (SStore (EV "mcols") (EBin Add (EBin Add (EBin Mul (EI 1) (EV "nFields")) (EBin Mul (EV "nnz") (EV "d1"))) (EV "d2")) (EI 0));
 (SStore (EV "mcols") (EBin Add (EBin Add (EBin Mul (EI 2) (EV "nFields")) (EBin Mul (EV "nnz") (EV "d1"))) (EV "d2")) (EI 0));
 (SStore (EV "mcols") (EBin Add (EBin Add (EBin Mul (EI 3) (EV "nFields")) (EBin Mul (EV "nnz") (EV "d1"))) (EV "d2")) (EI 0));
 (SStore (EV "mcols") (EBin Add (EBin Add (EBin Mul (EI 4) (EV "nFields")) (EBin Mul (EV "nnz") (EV "d1"))) (EV "d2")) (EI 0));
 (SStore (EV "mcols") (EBin Add (EBin Add (EBin Mul (EI 5) (EV "nFields")) (EBin Mul (EV "nnz") (EV "d1"))) (EV "d2")) (EI 0));
 (SStore (EV "mcols") (EBin Add (EBin Add (EBin Mul (EI 6) (EV "nFields")) (EBin Mul (EV "nnz") (EV "d1"))) (EV "d2")) (EI 0));
 (SStore (EV "mcols") (EBin Add (EBin Add (EBin Mul (EI 7) (EV "nFields")) (EBin Mul (EV "nnz") (EV "d1"))) (EV "d2")) (EI 0));
 (SStore (EV "mcols") (EBin Add (EBin Add (EBin Mul (EI 8) (EV "nFields")) (EBin Mul (EV "nnz") (EV "d1"))) (EV "d2")) (EI 0));
 (SStore (EV "mcols") (EBin Add (EBin Add (EBin Mul (EI 9) (EV "nFields")) (EBin Mul (EV "nnz") (EV "d1"))) (EV "d2")) (EI 0));
 (SStore (EV "mcols") (EBin Add (EBin Add (EBin Mul (EI 10) (EV "nFields")) (EBin Mul (EV "nnz") (EV "d1"))) (EV "d2")) (EBin Add (EBin Mul (EBin Sub (EV "nn") (EV "nx")) (EV "nFields")) (EV "d2")));
 (SStore (EV "mcols") (EBin Add (EBin Add (EBin Mul (EI 11) (EV "nFields")) (EBin Mul (EV "nnz") (EV "d1"))) (EV "d2")) (EBin Add (EBin Mul (EBin Add (EBin Sub (EV "nn") (EV "nx")) (EI 1)) (EV "nFields")) (EV "d2")));
 (SStore (EV "mcols") (EBin Add (EBin Add (EBin Mul (EI 12) (EV "nFields")) (EBin Mul (EV "nnz") (EV "d1"))) (EV "d2")) (EI 0));
 (SStore (EV "mcols") (EBin Add (EBin Add (EBin Mul (EI 13) (EV "nFields")) (EBin Mul (EV "nnz") (EV "d1"))) (EV "d2")) (EBin Add (EBin Mul (EV "nn") (EV "nFields")) (EV "d2")));
 (SStore (EV "mcols") (EBin Add (EBin Add (EBin Mul (EI 14) (EV "nFields")) (EBin Mul (EV "nnz") (EV "d1"))) (EV "d2")) (EBin Add (EBin Mul (EBin Add (EV "nn") (EI 1)) (EV "nFields")) (EV "d2")));
 (SStore (EV "mcols") (EBin Add (EBin Add (EBin Mul (EI 15) (EV "nFields")) (EBin Mul (EV "nnz") (EV "d1"))) (EV "d2")) (EI 0));
 (SStore (EV "mcols") (EBin Add (EBin Add (EBin Mul (EI 16) (EV "nFields")) (EBin Mul (EV "nnz") (EV "d1"))) (EV "d2")) (EBin Add (EBin Mul (EBin Add (EV "nn") (EV "nx")) (EV "nFields")) (EV "d2")));
 (SStore (EV "mcols") (EBin Add (EBin Add (EBin Mul (EI 17) (EV "nFields")) (EBin Mul (EV "nnz") (EV "d1"))) (EV "d2")) (EBin Add (EBin Mul (EBin Add (EBin Add (EV "nn") (EV "nx")) (EI 1)) (EV "nFields")) (EV "d2")));
 (SStore (EV "mcols") (EBin Add (EBin Add (EBin Mul (EI 18) (EV "nFields")) (EBin Mul (EV "nnz") (EV "d1"))) (EV "d2")) (EI 0));
 (SStore (EV "mcols") (EBin Add (EBin Add (EBin Mul (EI 19) (EV "nFields")) (EBin Mul (EV "nnz") (EV "d1"))) (EV "d2")) (EBin Add (EBin Mul (EBin Sub (EBin Add (EV "nn") (EBin Mul (EV "nx") (EV "ny"))) (EV "nx")) (EV "nFields")) (EV "d2")));
 (SStore (EV "mcols") (EBin Add (EBin Add (EBin Mul (EI 20) (EV "nFields")) (EBin Mul (EV "nnz") (EV "d1"))) (EV "d2")) (EBin Add (EBin Mul (EBin Add (EBin Sub (EBin Add (EV "nn") (EBin Mul (EV "nx") (EV "ny"))) (EV "nx")) (EI 1)) (EV "nFields")) (EV "d2")));
 (SStore (EV "mcols") (EBin Add (EBin Add (EBin Mul (EI 21) (EV "nFields")) (EBin Mul (EV "nnz") (EV "d1"))) (EV "d2")) (EI 0));
 (SStore (EV "mcols") (EBin Add (EBin Add (EBin Mul (EI 22) (EV "nFields")) (EBin Mul (EV "nnz") (EV "d1"))) (EV "d2")) (EBin Add (EBin Mul (EBin Add (EV "nn") (EBin Mul (EV "nx") (EV "ny"))) (EV "nFields")) (EV "d2")));
 (SStore (EV "mcols") (EBin Add (EBin Add (EBin Mul (EI 23) (EV "nFields")) (EBin Mul (EV "nnz") (EV "d1"))) (EV "d2")) (EBin Add (EBin Mul (EBin Add (EBin Add (EV "nn") (EBin Mul (EV "nx") (EV "ny"))) (EI 1)) (EV "nFields")) (EV "d2")));
 (SStore (EV "mcols") (EBin Add (EBin Add (EBin Mul (EI 24) (EV "nFields")) (EBin Mul (EV "nnz") (EV "d1"))) (EV "d2")) (EI 0));
 (SStore (EV "mcols") (EBin Add (EBin Add (EBin Mul (EI 25) (EV "nFields")) (EBin Mul (EV "nnz") (EV "d1"))) (EV "d2")) (EBin Add (EBin Mul (EBin Add (EBin Add (EV "nn") (EBin Mul (EV "nx") (EV "ny"))) (EV "nx")) (EV "nFields")) (EV "d2")));
 (SStore (EV "mcols") (EBin Add (EBin Add (EBin Mul (EI 26) (EV "nFields")) (EBin Mul (EV "nnz") (EV "d1"))) (EV "d2")) (EBin Add (EBin Mul (EBin Add (EBin Add (EBin Add (EV "nn") (EBin Mul (EV "nx") (EV "ny"))) (EV "nx")) (EI 1)) (EV "nFields")) (EV "d2")))])))]));
 (SFor "j" (EI 1) (EBin Lt (EV "j") (EBin Sub (EV "ny") (EI 1))) (block [(SSet "nn" (EBin Add (EBin Add (EBin Mul (EBin Mul (EI 0) (EV "nx")) (EV "ny")) (EBin Mul (EV "j") (EV "nx"))) (EBin Sub (EV "nx") (EI 1))));
 (SSet "mcols" (EAdr (EFld (EV "m") "cols") (EBin Mul (EBin Mul (EV "nn") (EV "nFields")) (EV "nnz"))));
 (SFor "d1" (EI 0) (EBin Lt (EV "d1") (EV "nFields")) (SFor "d2" (EI 0) (EBin Lt (EV "d2") (EV "nFields")) (block [(SStore (EV "mcols") (EBin Add (EBin Add (EBin Mul (EI 0) (EV "nFields")) (EBin Mul (EV "nnz") (EV "d1"))) (EV "d2")) (EI 0));
 (SStore (EV "mcols") (EBin Add (EBin Add (EBin Mul (EI 1) (EV "nFields")) (EBin Mul (EV "nnz") (EV "d1"))) (EV "d2")) (EI 0));
 (SStore (EV "mcols") (EBin Add (EBin Add (EBin Mul (EI 2) (EV "nFields")) (EBin Mul (EV "nnz") (EV "d1"))) (EV "d2")) (EI 0));
 (SStore (EV "mcols") (EBin Add (EBin Add (EBin Mul (EI 3) (EV "nFields")) (EBin Mul (EV "nnz") (EV "d1"))) (EV "d2")) (EI 0));
 (SStore (EV "mcols") (EBin Add (EBin Add (EBin Mul (EI 4) (EV "nFields")) (EBin Mul (EV "nnz") (EV "d1"))) (EV "d2")) (EI 0));
 (SStore (EV "mcols") (EBin Add (EBin Add (EBin Mul (EI 5) (EV "nFields")) (EBin Mul (EV "nnz") (EV "d1"))) (EV "d2")) (EI 0));
 (SStore (EV "mcols") (EBin Add (EBin Add (EBin Mul (EI 6) (EV "nFields")) (EBin Mul (EV "nnz") (EV "d1"))) (EV "d2")) (EI 0));
 (SStore (EV "mcols") (EBin Add (EBin Add (EBin Mul (EI 7) (EV "nFields")) (EBin Mul (EV "nnz") (EV "d1"))) (EV "d2")) (EI 0));
 (SStore (EV "mcols") (EBin Add (EBin Add (EBin Mul (EI 8) (EV "nFields")) (EBin Mul (EV "nnz") (EV "d1"))) (EV "d2")) (EI 0));
 (SStore (EV "mcols") (EBin Add (EBin Add (EBin Mul (EI 9) (EV "nFields")) (EBin Mul (EV "nnz") (EV "d1"))) (EV "d2")) (EBin Add (EBin Mul (EBin Sub (EBin Sub (EV "nn") (EV "nx")) (EI 1)) (EV "nFields")) (EV "d2")));
 (SStore (EV "mcols") (EBin Add (EBin Add (EBin Mul (EI 10) (EV "nFields")) (EBin Mul (EV "nnz") (EV "d1"))) (EV "d2")) (EBin Add (EBin Mul (EBin Sub (EV "nn") (EV "nx")) (EV "nFields")) (EV "d2")));
 (SStore (EV "mcols") (EBin Add (EBin Add (EBin Mul (EI 11) (EV "nFields")) (EBin Mul (EV "nnz") (EV "d1"))) (EV "d2")) (EI 0));
 (SStore (EV "mcols") (EBin Add (EBin Add (EBin Mul (EI 12) (EV "nFields")) (EBin Mul (EV "nnz") (EV "d1"))) (EV "d2")) (EBin Add (EBin Mul (EBin Sub (EV "nn") (EI 1)) (EV "nFields")) (EV "d2")));
 (SStore (EV "mcols") (EBin Add (EBin Add (EBin Mul (EI 13) (EV "nFields")) (EBin Mul (EV "nnz") (EV "d1"))) (EV "d2")) (EBin Add (EBin Mul (EV "nn") (EV "nFields")) (EV "d2")));
 (SStore (EV "mcols") (EBin Add (EBin Add (EBin Mul (EI 14) (EV "nFields")) (EBin Mul (EV "nnz") (EV "d1"))) (EV "d2")) (EI 0));
 (SStore (EV "mcols") (EBin Add (EBin Add (EBin Mul (EI 15) (EV "nFields")) (EBin Mul (EV "nnz") (EV "d1"))) (EV "d2")) (EBin Add (EBin Mul (EBin Sub (EBin Add (EV "nn") (EV "nx")) (EI 1)) (EV "nFields")) (EV "d2")));
 (SStore (EV "mcols") (EBin Add (EBin Add (EBin Mul (EI 16) (EV "nFields")) (EBin Mul (EV "nnz") (EV "d1"))) (EV "d2")) (EBin Add (EBin Mul (EBin Add (EV "nn") (EV "nx")) (EV "nFields")) (EV "d2")));
 (SStore (EV "mcols") (EBin Add (EBin Add (EBin Mul (EI 17) (EV "nFields")) (EBin Mul (EV "nnz") (EV "d1"))) (EV "d2")) (EI 0));
 (SStore (EV "mcols") (EBin Add (EBin Add (EBin Mul (EI 18) (EV "nFields")) (EBin Mul (EV "nnz") (EV "d1"))) (EV "d2")) (EBin Add (EBin Mul (EBin Sub (EBin Sub (EBin Add (EV "nn") (EBin Mul (EV "nx") (EV "ny"))) (EV "nx")) (EI 1)) (EV "nFields")) (EV "d2")));
 (SStore (EV "mcols") (EBin Add (EBin Add (EBin Mul (EI 19) (EV "nFields")) (EBin Mul (EV "nnz") (EV "d1"))) (EV "d2")) (EBin Add (EBin Mul (EBin Sub (EBin Add (EV "nn") (EBin Mul (EV "nx") (EV "ny"))) (EV "nx")) (EV "nFields")) (EV "d2")));
 (SStore (EV "mcols") (EBin Add (EBin Add (EBin Mul (EI 20) (EV "nFields")) (EBin Mul (EV "nnz") (EV "d1"))) (EV "d2")) (EI 0));
 (SStore (EV "mcols") (EBin Add (EBin Add (EBin Mul (EI 21) (EV "nFields")) (EBin Mul (EV "nnz") (EV "d1"))) (EV "d2")) (EBin Add (EBin Mul (EBin Sub (EBin Add (EV "nn") (EBin Mul (EV "nx") (EV "ny"))) (EI 1)) (EV "nFields")) (EV "d2")));
 (SStore (EV "mcols") (EBin Add (EBin Add (EBin Mul (EI 22) (EV "nFields")) (EBin Mul (EV "nnz") (EV "d1"))) (EV "d2")) (EBin Add (EBin Mul (EBin Add (EV "nn") (EBin Mul (EV "nx") (EV "ny"))) (EV "nFields")) (EV "d2")));
 (SStore (EV "mcols") (EBin Add (EBin Add (EBin Mul (EI 23) (EV "nFields")) (EBin Mul (EV "nnz") (EV "d1"))) (EV "d2")) (EI 0));
 (SStore (EV "mcols") (EBin Add (EBin Add (EBin Mul (EI 24) (EV "nFields")) (EBin Mul (EV "nnz") (EV "d1"))) (EV "d2")) (EBin Add (EBin Mul (EBin Sub (EBin Add (EBin Add (EV "nn") (EBin Mul (EV "nx") (EV "ny"))) (EV "nx")) (EI 1)) (EV "nFields")) (EV "d2")));
 (SStore (EV "mcols") (EBin Add (EBin Add (EBin Mul (EI 25) (EV "nFields")) (EBin Mul (EV "nnz") (EV "d1"))) (EV "d2")) (EBin Add (EBin Mul (EBin Add (EBin Add (EV "nn") (EBin Mul (EV "nx") (EV "ny"))) (EV "nx")) (EV "nFields")) (EV "d2")));
 (SStore (EV "mcols") (EBin Add (EBin Add (EBin Mul (EI 26) (EV "nFields")) (EBin Mul (EV "nnz") (EV "d1"))) (EV "d2")) (EI 0))])))]));
 (SFor "j" (EI 1) (EBin Lt (EV "j") (EBin Sub (EV "ny") (EI 1))) (block [(SSet "nn" (EBin Add (EBin Add (EBin Mul (EBin Mul (EBin Sub (EV "nz") (EI 1)) (EV "nx")) (EV "ny")) (EBin Mul (EV "j") (EV "nx"))) (EBin Sub (EV "nx") (EI 1))));
 (SSet "mcols" (EAdr (EFld (EV "m") "cols") (EBin Mul (EBin Mul (EV "nn") (EV "nFields")) (EV "nnz"))));
 (SFor "d1" (EI 0) (EBin Lt (EV "d1") (EV "nFields")) (SFor "d2" (EI 0) (EBin Lt (EV "d2") (EV "nFields")) (block [(SStore (EV "mcols") (EBin Add (EBin Add (EBin Mul (EI 0) (EV "nFields")) (EBin Mul (EV "nnz") (EV "d1"))) (EV "d2")) (EBin Add (EBin Mul (EBin Sub (EBin Sub (EBin Sub (EV "nn") (EBin Mul (EV "nx") (EV "ny"))) (EV "nx")) (EI 1)) (EV "nFields")) (EV "d2")));
 (SStore (EV "mcols") (EBin Add (EBin Add (EBin Mul (EI 1) (EV "nFields")) (EBin Mul (EV "nnz") (EV "d1"))) (EV "d2")) (EBin Add (EBin Mul (EBin Sub (EBin Sub (EV "nn") (EBin Mul (EV "nx") (EV "ny"))) (EV "nx")) (EV "nFields")) (EV "d2")));
 (SStore (EV "mcols") (EBin Add (EBin Add (EBin Mul (EI 2) (EV "nFields")) (EBin Mul (EV "nnz") (EV "d1"))) (EV "d2")) (EI 0));
 (SStore (EV "mcols") (EBin Add (EBin Add (EBin Mul (EI 3) (EV "nFields")) (EBin Mul (EV "nnz") (EV "d1"))) (EV "d2")) (EBin Add (EBin Mul (EBin Sub (EBin Sub (EV "nn") (EBin Mul (EV "nx") (EV "ny"))) (EI 1)) (EV "nFields")) (EV "d2")));
 (SStore (EV "mcols") (EBin Add (EBin Add (EBin Mul (EI 4) (EV "nFields")) (EBin Mul (EV "nnz") (EV "d1"))) (EV "d2")) (EBin Add (EBin Mul (EBin Sub (EV "nn") (EBin Mul (EV "nx") (EV "ny"))) (EV "nFields")) (EV "d2")));
 (SStore (EV "mcols") (EBin Add (EBin Add (EBin Mul (EI 5) (EV "nFields")) (EBin Mul (EV "nnz") (EV "d1"))) (EV "d2")) (EI 0));
 (SStore (EV "mcols") (EBin Add (EBin Add (EBin Mul (EI 6) (EV "nFields")) (EBin Mul (EV "nnz") (EV "d1"))) (EV "d2")) (EBin Add (EBin Mul (EBin Sub (EBin Add (EBin Sub (EV "nn") (EBin Mul (EV "nx") (EV "ny"))) (EV "nx")) (EI 1)) (EV "nFields")) (EV "d2")));
 (SStore (EV "mcols") (EBin Add (EBin Add (EBin Mul (EI 7) (EV "nFields")) (EBin Mul (EV "nnz") (EV "d1"))) (EV "d2")) (EBin Add (EBin Mul (EBin Add (EBin Sub (EV "nn") (EBin Mul (EV "nx") (EV "ny"))) (EV "nx")) (EV "nFields")) (EV "d2")));
 (SStore (EV "mcols") (EBin Add (EBin Add (EBin Mul (EI 8) (EV "nFields")) (EBin Mul (EV "nnz") (EV "d1"))) (EV "d2")) (EI 0));
 (SStore (EV "mcols") (EBin Add (EBin Add (EBin Mul (EI 9) (EV "nFields")) (EBin Mul (EV "nnz") (EV "d1"))) (EV "d2")) (EBin Add (EBin Mul (EBin Sub (EBin Sub (EV "nn") (EV "nx")) (EI 1)) (EV "nFields")) (EV "d2")));
 (SStore (EV "mcols") (EBin Add (EBin Add (EBin Mul (EI 10) (EV "nFields")) (EBin Mul (EV "nnz") (EV "d1"))) (EV "d2")) (EBin Add (EBin Mul (EBin Sub (EV "nn") (EV "nx")) (EV "nFields")) (EV "d2")));
 (SStore (EV "mcols") (EBin Add (EBin Add (EBin Mul (EI 11) (EV "nFields")) (EBin Mul (EV "nnz") (EV "d1"))) (EV "d2")) (EI 0));
 (SStore (EV "mcols") (EBin Add (EBin Add (EBin Mul (EI 12) (EV "nFields")) (EBin Mul (EV "nnz") (EV "d1"))) (EV "d2")) (EBin Add (EBin Mul (EBin Sub (EV "nn") (EI 1)) (EV "nFields")) (EV "d2")));
 (SStore (EV "mcols") (EBin Add (EBin Add (EBin Mul (EI 13) (EV "nFields")) (EBin Mul (EV "nnz") (EV "d1"))) (EV "d2")) (EBin Add (EBin Mul (EV "nn") (EV "nFields")) (EV "d2")));
 (SStore (EV "mcols") (EBin Add (EBin Add (EBin Mul (EI 14) (EV "nFields")) (EBin Mul (EV "nnz") (EV "d1"))) (EV "d2")) (EI 0));
 (SStore (EV "mcols") (EBin Add (EBin Add (EBin Mul (EI 15) (EV "nFields")) (EBin Mul (EV "nnz") (EV "d1"))) (EV "d2")) (EBin Add (EBin Mul (EBin Sub (EBin Add (EV "nn") (EV "nx")) (EI 1)) (EV "nFields")) (EV "d2")));
 (SStore (EV "mcols") (EBin Add (EBin Add (EBin Mul (EI 16) (EV "nFields")) (EBin Mul (EV "nnz") (EV "d1"))) (EV "d2")) (EBin Add (EBin Mul (EBin Add (EV "nn") (EV "nx")) (EV "nFields")) (EV "d2")));
 (SStore (EV "mcols") (EBin Add (EBin Add (EBin Mul (EI 17) (EV "nFields")) (EBin Mul (EV "nnz") (EV "d1"))) (EV "d2")) (EI 0));
 (SStore (EV "mcols") (EBin Add (EBin Add (EBin Mul (EI 18) (EV "nFields")) (EBin Mul (EV "nnz") (EV "d1"))) (EV "d2")) (EI 0));
 (SStore (EV "mcols") (EBin Add (EBin Add (EBin Mul (EI 19) (EV "nFields")) (EBin Mul (EV "nnz") (EV "d1"))) (EV "d2")) (EI 0));
 (SStore (EV "mcols") (EBin Add (EBin Add (EBin Mul (EI 20) (EV "nFields")) (EBin Mul (EV "nnz") (EV "d1"))) (EV "d2")) (EI 0));
 (SStore (EV "mcols") (EBin Add (EBin Add (EBin Mul (EI 21) (EV "nFields")) (EBin Mul (EV "nnz") (EV "d1"))) (EV "d2")) (EI 0));
 (SStore (EV "mcols") (EBin Add (EBin Add (EBin Mul (EI 22) (EV "nFields")) (EBin Mul (EV "nnz") (EV "d1"))) (EV "d2")) (EI 0));
 (SStore (EV "mcols") (EBin Add (EBin Add (EBin Mul (EI 23) (EV "nFields")) (EBin Mul (EV "nnz") (EV "d1"))) (EV "d2")) (EI 0));
 (SStore (EV "mcols") (EBin Add (EBin Add (EBin Mul (EI 24) (EV "nFields")) (EBin Mul (EV "nnz") (EV "d1"))) (EV "d2")) (EI 0));
 (SStore (EV "mcols") (EBin Add (EBin Add (EBin Mul (EI 25) (EV "nFields")) (EBin Mul (EV "nnz") (EV "d1"))) (EV "d2")) (EI 0));
 (SStore (EV "mcols") (EBin Add (EBin Add (EBin Mul (EI 26) (EV "nFields")) (EBin Mul (EV "nnz") (EV "d1"))) (EV "d2")) (EI 0))])))]));
 (SFor "j" (EI 1) (EBin Lt (EV "j") (EBin Sub (EV "ny") (EI 1))) (block [(SSet "nn" (EBin Add (EBin Add (EBin Mul (EBin Mul (EBin Sub (EV "nz") (EI 1)) (EV "nx")) (EV "ny")) (EBin Mul (EV "j") (EV "nx"))) (EI 0)));
 (SSet "mcols" (EAdr (EFld (EV "m") "cols") (EBin Mul (EBin Mul (EV "nn") (EV "nFields")) (EV "nnz"))));
 (SFor "d1" (EI 0) (EBin Lt (EV "d1") (EV "nFields")) (SFor "d2" (EI 0) (EBin Lt (EV "d2") (EV "nFields")) (block [(SStore (EV "mcols") (EBin Add (EBin Add (EBin Mul (EI 0) (EV "nFields")) (EBin Mul (EV "nnz") (EV "d1"))) (EV "d2")) (EI 0));
 (SStore (EV "mcols") (EBin Add (EBin Add (EBin Mul (EI 1) (EV "nFields")) (EBin Mul (EV "nnz") (EV "d1"))) (EV "d2")) (EBin Add (EBin Mul (EBin Sub (EBin Sub (EV "nn") (EBin Mul (EV "nx") (EV "ny"))) (EV "nx")) (EV "nFields")) (EV "d2")));
 (SStore (EV "mcols") (EBin Add (EBin Add (EBin Mul (EI 2) (EV "nFields")) (EBin Mul (EV "nnz") (EV "d1"))) (EV "d2")) (EBin Add (EBin Mul (EBin Add (EBin Sub (EBin Sub (EV "nn") (EBin Mul (EV "nx") (EV "ny"))) (EV "nx")) (EI 1)) (EV "nFields")) (EV "d2")));
 (SStore (EV "mcols") (EBin Add (EBin Add (EBin Mul (EI 3) (EV "nFields")) (EBin Mul (EV "nnz") (EV "d1"))) (EV "d2")) (EI 0));
 (SStore (EV "mcols") (EBin Add (EBin Add (EBin Mul (EI 4) (EV "nFields")) (EBin Mul (EV "nnz") (EV "d1"))) (EV "d2")) (EBin Add (EBin Mul (EBin Sub (EV "nn") (EBin Mul (EV "nx") (EV "ny"))) (EV "nFields")) (EV "d2")));
 (SStore (EV "mcols") (EBin Add (EBin Add (EBin Mul (EI 5) (EV "nFields")) (EBin Mul (EV "nnz") (EV "d1"))) (EV "d2")) (EBin Add (EBin Mul (EBin Add (EBin Sub (EV "nn") (EBin Mul (EV "nx") (EV "ny"))) (EI 1)) (EV "nFields")) (EV "d2")));
 (SStore (EV "mcols") (EBin Add (EBin Add (EBin Mul (EI 6) (EV "nFields")) (EBin Mul (EV "nnz") (EV "d1"))) (EV "d2")) (EI 0));
 (SStore (EV "mcols") (EBin Add (EBin Add (EBin Mul (EI 7) (EV "nFields")) (EBin Mul (EV "nnz") (EV "d1"))) (EV "d2")) (EBin Add (EBin Mul (EBin Add (EBin Sub (EV "nn") (EBin Mul (EV "nx") (EV "ny"))) (EV "nx")) (EV "nFields")) (EV "d2")));
 (SStore (EV "mcols") (EBin Add (EBin Add (EBin Mul (EI 8) (EV "nFields")) (EBin Mul (EV "nnz") (EV "d1"))) (EV "d2")) (EBin Add (EBin Mul (EBin Add (EBin Add (EBin Sub (EV "nn") (EBin Mul (EV "nx") (EV "ny"))) (EV "nx")) (EI 1)) (EV "nFields")) (EV "d2")));
 (SStore (EV "mcols") (EBin Add (EBin Add (EBin Mul (EI 9) (EV "nFields")) (EBin Mul (EV "nnz") (EV "d1"))) (EV "d2")) (EI 0));
 (SStore (EV "mcols") (EBin Add (EBin Add (EBin Mul (EI 10) (EV "nFields")) (EBin Mul (EV "nnz") (EV "d1"))) (EV "d2")) (EBin Add (EBin Mul (EBin Sub (EV "nn") (EV "nx")) (EV "nFields")) (EV "d2")));
 (SStore (EV "mcols") (EBin Add (EBin Add (EBin Mul (EI 11) (EV "nFields")) (EBin Mul (EV "nnz") (EV "d1"))) (EV "d2")) (EBin Add (EBin Mul (EBin Add (EBin Sub (EV "nn") (EV "nx")) (EI 1)) (EV "nFields")) (EV "d2")));
 (SStore (EV "mcols") (EBin Add (EBin Add (EBin Mul (EI 12) (EV "nFields")) (EBin Mul (EV "nnz") (EV "d1"))) (EV "d2")) (EI 0));
 (SStore (EV "mcols") (EBin Add (EBin Add (EBin Mul (EI 13) (EV "nFields")) (EBin Mul (EV "nnz") (EV "d1"))) (EV "d2")) (EBin Add (EBin Mul (EV "nn") (EV "nFields")) (EV "d2")));
 (SStore (EV "mcols") (EBin Add (EBin Add (EBin Mul (EI 14) (EV "nFields")) (EBin Mul (EV "nnz") (EV "d1"))) (EV "d2")) (EBin Add (EBin Mul (EBin Add (EV "nn") (EI 1)) (EV "nFields")) (EV "d2")));
 (SStore (EV "mcols") (EBin Add (EBin Add (EBin Mul (EI 15) (EV "nFields")) (EBin Mul (EV "nnz") (EV "d1"))) (EV "d2")) (EI 0));
 (SStore (EV "mcols") (EBin Add (EBin Add (EBin Mul (EI 16) (EV "nFields")) (EBin Mul (EV "nnz") (EV "d1"))) (EV "d2")) (EBin Add (EBin Mul (EBin Add (EV "nn") (EV "nx")) (EV "nFields")) (EV "d2")));
 (SStore (EV "mcols") (EBin Add (EBin Add (EBin Mul (EI 17) (EV "nFields")) (EBin Mul (EV "nnz") (EV "d1"))) (EV "d2")) (EBin Add (EBin Mul (EBin Add (EBin Add (EV "nn") (EV "nx")) (EI 1)) (EV "nFields")) (EV "d2")));
 (SStore (EV "mcols") (EBin Add (EBin Add (EBin Mul (EI 18) (EV "nFields")) (EBin Mul (EV "nnz") (EV "d1"))) (EV "d2")) (EI 0));
 (SStore (EV "mcols") (EBin Add (EBin Add (EBin Mul (EI 19) (EV "nFields")) (EBin Mul (EV "nnz") (EV "d1"))) (EV "d2")) (EI 0));
 (SStore (EV "mcols") (EBin Add (EBin Add (EBin Mul (EI 20) (EV "nFields")) (EBin Mul (EV "nnz") (EV "d1"))) (EV "d2")) (EI 0));
 (SStore (EV "mcols") (EBin Add (EBin Add (EBin Mul (EI 21) (EV "nFields")) (EBin Mul (EV "nnz") (EV "d1"))) (EV "d2")) (EI 0));
 (SStore (EV "mcols") (EBin Add (EBin Add (EBin Mul (EI 22) (EV "nFields")) (EBin Mul (EV "nnz") (EV "d1"))) (EV "d2")) (EI 0));
 (SStore (EV "mcols") (EBin Add (EBin Add (EBin Mul (EI 23) (EV "nFields")) (EBin Mul (EV "nnz") (EV "d1"))) (EV "d2")) (EI 0));
 (SStore (EV "mcols") (EBin Add (EBin Add (EBin Mul (EI 24) (EV "nFields")) (EBin Mul (EV "nnz") (EV "d1"))) (EV "d2")) (EI 0));
 (SStore (EV "mcols") (EBin Add (EBin Add (EBin Mul (EI 25) (EV "nFields")) (EBin Mul (EV "nnz") (EV "d1"))) (EV "d2")) (EI 0));
 (SStore (EV "mcols") (EBin Add (EBin Add (EBin Mul (EI 26) (EV "nFields")) (EBin Mul (EV "nnz") (EV "d1"))) (EV "d2")) (EI 0))])))]));
 (SFor "i" (EI 1) (EBin Lt (EV "i") (EBin Sub (EV "nx") (EI 1))) (SFor "j" (EI 1) (EBin Lt (EV "j") (EBin Sub (EV "ny") (EI 1))) (block [(SSet "nn" (EBin Add (EBin Add (EBin Mul (EBin Mul (EI 0) (EV "nx")) (EV "ny")) (EBin Mul (EV "j") (EV "nx"))) (EV "i")));
 (SSet "mcols" (EAdr (EFld (EV "m") "cols") (EBin Mul (EBin Mul (EV "nn") (EV "nFields")) (EV "nnz"))));
 (SFor "d1" (EI 0) (EBin Lt (EV "d1") (EV "nFields")) (SFor "d2" (EI 0) (EBin Lt (EV "d2") (EV "nFields")) (block [(SStore (EV "mcols") (EBin Add (EBin Add (EBin Mul (EI 0) (EV "nFields")) (EBin Mul (EV "nnz") (EV "d1"))) (EV "d2")) (EI 0));
 (SStore (EV "mcols") (EBin Add (EBin Add (EBin Mul (EI 1) (EV "nFields")) (EBin Mul (EV "nnz") (EV "d1"))) (EV "d2")) (EI 0));
 (SStore (EV "mcols") (EBin Add (EBin Add (EBin Mul (EI 2) (EV "nFields")) (EBin Mul (EV "nnz") (EV "d1"))) (EV "d2")) (EI 0));
 (SStore (EV "mcols") (EBin Add (EBin Add (EBin Mul (EI 3) (EV "nFields")) (EBin Mul (EV "nnz") (EV "d1"))) (EV "d2")) (EI 0));
 (SStore (EV "mcols") (EBin Add (EBin Add (EBin Mul (EI 4) (EV "nFields")) (EBin Mul (EV "nnz") (EV "d1"))) (EV "d2")) (EI 0));
 (SStore (EV "mcols") (EBin Add (EBin Add (EBin Mul (EI 5) (EV "nFields")) (EBin Mul (EV "nnz") (EV "d1"))) (EV "d2")) (EI 0));
 (SStore (EV "mcols") (EBin Add (EBin Add (EBin Mul (EI 6) (EV "nFields")) (EBin Mul (EV "nnz") (EV "d1"))) (EV "d2")) (EI 0));
 (SStore (EV "mcols") (EBin Add (EBin Add (EBin Mul (EI 7) (EV "nFields")) (EBin Mul (EV "nnz") (EV "d1"))) (EV "d2")) (EI 0));
 (SStore (EV "mcols") (EBin Add (EBin Add (EBin Mul (EI 8) (EV "nFields")) (EBin Mul (EV "nnz") (EV "d1"))) (EV "d2")) (EI 0));
 (SStore (EV "mcols") (EBin Add (EBin Add (EBin Mul (EI 9) (EV "nFields")) (EBin Mul (EV "nnz") (EV "d1"))) (EV "d2")) (EBin Add (EBin Mul (EBin Sub (EBin Sub (EV "nn") (EV "nx")) (EI 1)) (EV "nFields")) (EV "d2")));
 (SStore (EV "mcols") (EBin Add (EBin Add (EBin Mul (EI 10) (EV "nFields")) (EBin Mul (EV "nnz") (EV "d1"))) (EV "d2")) (EBin Add (EBin Mul (EBin Sub (EV "nn") (EV "nx")) (EV "nFields")) (EV "d2")));
 (SStore (EV "mcols") (EBin Add (EBin Add (EBin Mul (EI 11) (EV "nFields")) (EBin Mul (EV "nnz") (EV "d1"))) (EV "d2")) (EBin Add (EBin Mul (EBin Add (EBin Sub (EV "nn") (EV "nx")) (EI 1)) (EV "nFields")) (EV "d2")));
 (SStore (EV "mcols") (EBin Add (EBin Add (EBin Mul (EI 12) (EV "nFields")) (EBin Mul (EV "nnz") (EV "d1"))) (EV "d2")) (EBin Add (EBin Mul (EBin Sub (EV "nn") (EI 1)) (EV "nFields")) (EV "d2")));
 (SStore (EV "mcols") (EBin Add (EBin Add (EBin Mul (EI 13) (EV "nFields")) (EBin Mul (EV "nnz") (EV "d1"))) (EV "d2")) (EBin Add (EBin Mul (EV "nn") (EV "nFields")) (EV "d2")));
 (SStore (EV "mcols") (EBin Add (EBin Add (EBin Mul (EI 14) (EV "nFields")) (EBin Mul (EV "nnz") (EV "d1"))) (EV "d2")) (EBin Add (EBin Mul (EBin Add (EV "nn") (EI 1)) (EV "nFields")) (EV "d2")));
 (SStore (EV "mcols") (EBin Add (EBin Add (EBin Mul (EI 15) (EV "nFields")) (EBin Mul (EV "nnz") (EV "d1"))) (EV "d2")) (EBin Add (EBin Mul (EBin Sub (EBin Add (EV "nn") (EV "nx")) (EI 1)) (EV "nFields")) (EV "d2")));
 (SStore (EV "mcols") (EBin Add (EBin Add (EBin Mul (EI 16) (EV "nFields")) (EBin Mul (EV "nnz") (EV "d1"))) (EV "d2")) (EBin Add (EBin Mul (EBin Add (EV "nn") (EV "nx")) (EV "nFields")) (EV "d2")));
 (SStore (EV "mcols") (EBin Add (EBin Add (EBin Mul (EI 17) (EV "nFields")) (EBin Mul (EV "nnz") (EV "d1"))) (EV "d2")) (EBin Add (EBin Mul (EBin Add (EBin Add (EV "nn") (EV "nx")) (EI 1)) (EV "nFields")) (EV "d2")));
 (SStore (EV "mcols") (EBin Add (EBin Add (EBin Mul (EI 18) (EV "nFields")) (EBin Mul (EV "nnz") (EV "d1"))) (EV "d2")) (EBin Add (EBin Mul (EBin Sub (EBin Sub (EBin Add (EV "nn") (EBin Mul (EV "nx") (EV "ny"))) (EV "nx")) (EI 1)) (EV "nFields")) (EV "d2")));
 (SStore (EV "mcols") (EBin Add (EBin Add (EBin Mul (EI 19) (EV "nFields")) (EBin Mul (EV "nnz") (EV "d1"))) (EV "d2")) (EBin Add (EBin Mul (EBin Sub (EBin Add (EV "nn") (EBin Mul (EV "nx") (EV "ny"))) (EV "nx")) (EV "nFields")) (EV "d2")));
 (SStore (EV "mcols") (EBin Add (EBin Add (EBin Mul (EI 20) (EV "nFields")) (EBin Mul (EV "nnz") (EV "d1"))) (EV "d2")) (EBin Add (EBin Mul (EBin Add (EBin Sub (EBin Add (EV "nn") (EBin Mul (EV "nx") (EV "ny"))) (EV "nx")) (EI 1)) (EV "nFields")) (EV "d2")));
 (SStore (EV "mcols") (EBin Add (EBin Add (EBin Mul (EI 21) (EV "nFields")) (EBin Mul (EV "nnz") (EV "d1"))) (EV "d2")) (EBin Add (EBin Mul (EBin Sub (EBin Add (EV "nn") (EBin Mul (EV "nx") (EV "ny"))) (EI 1)) (EV "nFields")) (EV "d2")));
 (SStore (EV "mcols") (EBin Add (EBin Add (EBin Mul (EI 22) (EV "nFields")) (EBin Mul (EV "nnz") (EV "d1"))) (EV "d2")) (EBin Add (EBin Mul (EBin Add (EV "nn") (EBin Mul (EV "nx") (EV "ny"))) (EV "nFields")) (EV "d2")));
 (SStore (EV "mcols") (EBin Add (EBin Add (EBin Mul (EI 23) (EV "nFields")) (EBin Mul (EV "nnz") (EV "d1"))) (EV "d2")) (EBin Add (EBin Mul (EBin Add (EBin Add (EV "nn") (EBin Mul (EV "nx") (EV "ny"))) (EI 1)) (EV "nFields")) (EV "d2")));
 (SStore (EV "mcols") (EBin Add (EBin Add (EBin Mul (EI 24) (EV "nFields")) (EBin Mul (EV "nnz") (EV "d1"))) (EV "d2")) (EBin Add (EBin Mul (EBin Sub (EBin Add (EBin Add (EV "nn") (EBin Mul (EV "nx") (EV "ny"))) (EV "nx")) (EI 1)) (EV "nFields")) (EV "d2")));
 (SStore (EV "mcols") (EBin Add (EBin Add (EBin Mul (EI 25) (EV "nFields")) (EBin Mul (EV "nnz") (EV "d1"))) (EV "d2")) (EBin Add (EBin Mul (EBin Add (EBin Add (EV "nn") (EBin Mul (EV "nx") (EV "ny"))) (EV "nx")) (EV "nFields")) (EV "d2")));
 (SStore (EV "mcols") (EBin Add (EBin Add (EBin Mul (EI 26) (EV "nFields")) (EBin Mul (EV "nnz") (EV "d1"))) (EV "d2")) (EBin Add (EBin Mul (EBin Add (EBin Add (EBin Add (EV "nn") (EBin Mul (EV "nx") (EV "ny"))) (EV "nx")) (EI 1)) (EV "nFields")) (EV "d2")))])))])));
 (SFor "i" (EI 1) (EBin Lt (EV "i") (EBin Sub (EV "nx") (EI 1))) (SFor "j" (EI 1) (EBin Lt (EV "j") (EBin Sub (EV "ny") (EI 1))) (block [(SSet "nn" (EBin Add (EBin Add (EBin Mul (EBin Mul (EBin Sub (EV "nz") (EI 1)) (EV "nx")) (EV "ny")) (EBin Mul (EV "j") (EV "nx"))) (EV "i")));
 (SSet "mcols" (EAdr (EFld (EV "m") "cols") (EBin Mul (EBin Mul (EV "nn") (EV "nFields")) (EV "nnz"))));
 (SFor "d1" (EI 0) (EBin Lt (EV "d1") (EV "nFields")) (SFor "d2" (EI 0) (EBin Lt (EV "d2") (EV "nFields")) (block [(SStore (EV "mcols") (EBin Add (EBin Add (EBin Mul (EI 0) (EV "nFields")) (EBin Mul (EV "nnz") (EV "d1"))) (EV "d2")) (EBin Add (EBin Mul (EBin Sub (EBin Sub (EBin Sub (EV "nn") (EBin Mul (EV "nx") (EV "ny"))) (EV "nx")) (EI 1)) (EV "nFields")) (EV "d2")));
 (SStore (EV "mcols") (EBin Add (EBin Add (EBin Mul (EI 1) (EV "nFields")) (EBin Mul (EV "nnz") (EV "d1"))) (EV "d2")) (EBin Add (EBin Mul (EBin Sub (EBin Sub (EV "nn") (EBin Mul (EV "nx") (EV "ny"))) (EV "nx")) (EV "nFields")) (EV "d2")));
 (SStore (EV "mcols") (EBin Add (EBin Add (EBin Mul (EI 2) (EV "nFields")) (EBin Mul (EV "nnz") (EV "d1"))) (EV "d2")) (EBin Add (EBin Mul (EBin Add (EBin Sub (EBin Sub (EV "nn") (EBin Mul (EV "nx") (EV "ny"))) (EV "nx")) (EI 1)) (EV "nFields")) (EV "d2")));
 (SStore (EV "mcols") (EBin Add (EBin Add (EBin Mul (EI 3) (EV "nFields")) (EBin Mul (EV "nnz") (EV "d1"))) (EV "d2")) (EBin Add (EBin Mul (EBin Sub (EBin Sub (EV "nn") (EBin Mul (EV "nx") (EV "ny"))) (EI 1)) (EV "nFields")) (EV "d2")));
 (SStore (EV "mcols") (EBin Add (EBin Add (EBin Mul (EI 4) (EV "nFields")) (EBin Mul (EV "nnz") (EV "d1"))) (EV "d2")) (EBin Add (EBin Mul (EBin Sub (EV "nn") (EBin Mul (EV "nx") (EV "ny"))) (EV "nFields")) (EV "d2")));
 (SStore (EV "mcols") (EBin Add (EBin Add (EBin Mul (EI 5) (EV "nFields")) (EBin Mul (EV "nnz") (EV "d1"))) (EV "d2")) (EBin Add (EBin Mul (EBin Add (EBin Sub (EV "nn") (EBin Mul (EV "nx") (EV "ny"))) (EI 1)) (EV "nFields")) (EV "d2")));
 (SStore (EV "mcols") (EBin Add (EBin Add (EBin Mul (EI 6) (EV "nFields")) (EBin Mul (EV "nnz") (EV "d1"))) (EV "d2")) (EBin Add (EBin Mul (EBin Sub (EBin Add (EBin Sub (EV "nn") (EBin Mul (EV "nx") (EV "ny"))) (EV "nx")) (EI 1)) (EV "nFields")) (EV "d2")));
 (SStore (EV "mcols") (EBin Add (EBin Add (EBin Mul (EI 7) (EV "nFields")) (EBin Mul (EV "nnz") (EV "d1"))) (EV "d2")) (EBin Add (EBin Mul (EBin Add (EBin Sub (EV "nn") (EBin Mul (EV "nx") (EV "ny"))) (EV "nx")) (EV "nFields")) (EV "d2")));
 (SStore (EV "mcols") (EBin Add (EBin Add (EBin Mul (EI 8) (EV "nFields")) (EBin Mul (EV "nnz") (EV "d1"))) (EV "d2")) (EBin Add (EBin Mul (EBin Add (EBin Add (EBin Sub (EV "nn") (EBin Mul (EV "nx") (EV "ny"))) (EV "nx")) (EI 1)) (EV "nFields")) (EV "d2")));
 (SStore (EV "mcols") (EBin Add (EBin Add (EBin Mul (EI 9) (EV "nFields")) (EBin Mul (EV "nnz") (EV "d1"))) (EV "d2")) (EBin Add (EBin Mul (EBin Sub (EBin Sub (EV "nn") (EV "nx")) (EI 1)) (EV "nFields")) (EV "d2")));
 (SStore (EV "mcols") (EBin Add (EBin Add (EBin Mul (EI 10) (EV "nFields")) (EBin Mul (EV "nnz") (EV "d1"))) (EV "d2")) (EBin Add (EBin Mul (EBin Sub (EV "nn") (EV "nx")) (EV "nFields")) (EV "d2")));
 (SStore (EV "mcols") (EBin Add (EBin Add (EBin Mul (EI 11) (EV "nFields")) (EBin Mul (EV "nnz") (EV "d1"))) (EV "d2")) (EBin Add (EBin Mul (EBin Add (EBin Sub (EV "nn") (EV "nx")) (EI 1)) (EV "nFields")) (EV "d2")));
 (SStore (EV "mcols") (EBin Add (EBin Add (EBin Mul (EI 12) (EV "nFields")) (EBin Mul (EV "nnz") (EV "d1"))) (EV "d2")) (EBin Add (EBin Mul (EBin Sub (EV "nn") (EI 1)) (EV "nFields")) (EV "d2")));
 (SStore (EV "mcols") (EBin Add (EBin Add (EBin Mul (EI 13) (EV "nFields")) (EBin Mul (EV "nnz") (EV "d1"))) (EV "d2")) (EBin Add (EBin Mul (EV "nn") (EV "nFields")) (EV "d2")));
 (SStore (EV "mcols") (EBin Add (EBin Add (EBin Mul (EI 14) (EV "nFields")) (EBin Mul (EV "nnz") (EV "d1"))) (EV "d2")) (EBin Add (EBin Mul (EBin Add (EV "nn") (EI 1)) (EV "nFields")) (EV "d2")));
 (SStore (EV "mcols") (EBin Add (EBin Add (EBin Mul (EI 15) (EV "nFields")) (EBin Mul (EV "nnz") (EV "d1"))) (EV "d2")) (EBin Add (EBin Mul (EBin Sub (EBin Add (EV "nn") (EV "nx")) (EI 1)) (EV "nFields")) (EV "d2")));
 (SStore (EV "mcols") (EBin Add (EBin Add (EBin Mul (EI 16) (EV "nFields")) (EBin Mul (EV "nnz") (EV "d1"))) (EV "d2")) (EBin Add (EBin Mul (EBin Add (EV "nn") (EV "nx")) (EV "nFields")) (EV "d2")));
 (SStore (EV "mcols") (EBin Add (EBin Add (EBin Mul (EI 17) (EV "nFields")) (EBin Mul (EV "nnz") (EV "d1"))) (EV "d2")) (EBin Add (EBin Mul (EBin Add (EBin Add (EV "nn") (EV "nx")) (EI 1)) (EV "nFields")) (EV "d2")));
 (SStore (EV "mcols") (EBin Add (EBin Add (EBin Mul (EI 18) (EV "nFields")) (EBin Mul (EV "nnz") (EV "d1"))) (EV "d2")) (EI 0));
 (SStore (EV "mcols") (EBin Add (EBin Add (EBin Mul (EI 19) (EV "nFields")) (EBin Mul (EV "nnz") (EV "d1"))) (EV "d2")) (EI 0));
 (SStore (EV "mcols") (EBin Add (EBin Add (EBin Mul (EI 20) (EV "nFields")) (EBin Mul (EV "nnz") (EV "d1"))) (EV "d2")) (EI 0));
 (SStore (EV "mcols") (EBin Add (EBin Add (EBin Mul (EI 21) (EV "nFields")) (EBin Mul (EV "nnz") (EV "d1"))) (EV "d2")) (EI 0));
 (SStore (EV "mcols") (EBin Add (EBin Add (EBin Mul (EI 22) (EV "nFields")) (EBin Mul (EV "nnz") (EV "d1"))) (EV "d2")) (EI 0));
 (SStore (EV "mcols") (EBin Add (EBin Add (EBin Mul (EI 23) (EV "nFields")) (EBin Mul (EV "nnz") (EV "d1"))) (EV "d2")) (EI 0));
 (SStore (EV "mcols") (EBin Add (EBin Add (EBin Mul (EI 24) (EV "nFields")) (EBin Mul (EV "nnz") (EV "d1"))) (EV "d2")) (EI 0));
 (SStore (EV "mcols") (EBin Add (EBin Add (EBin Mul (EI 25) (EV "nFields")) (EBin Mul (EV "nnz") (EV "d1"))) (EV "d2")) (EI 0));
 (SStore (EV "mcols") (EBin Add (EBin Add (EBin Mul (EI 26) (EV "nFields")) (EBin Mul (EV "nnz") (EV "d1"))) (EV "d2")) (EI 0))])))])));
 (SFor "i" (EI 1) (EBin Lt (EV "i") (EBin Sub (EV "nx") (EI 1))) (SFor "k" (EI 1) (EBin Lt (EV "k") (EBin Sub (EV "nz") (EI 1))) (block [(SSet "nn" (EBin Add (EBin Add (EBin Mul (EBin Mul (EV "k") (EV "nx")) (EV "ny")) (EBin Mul (EI 0) (EV "nx"))) (EV "i")));
 (SSet "mcols" (EAdr (EFld (EV "m") "cols") (EBin Mul (EBin Mul (EV "nn") (EV "nFields")) (EV "nnz"))));
 (SFor "d1" (EI 0) (EBin Lt (EV "d1") (EV "nFields")) (SFor "d2" (EI 0) (EBin Lt (EV "d2") (EV "nFields")) (block [(SStore (EV "mcols") (EBin Add (EBin Add (EBin Mul (EI 0) (EV "nFields")) (EBin Mul (EV "nnz") (EV "d1"))) (EV "d2")) (EI 0));
 (SStore (EV "mcols") (EBin Add (EBin Add (EBin Mul (EI 1) (EV "nFields")) (EBin Mul (EV "nnz") (EV "d1"))) (EV "d2")) (EI 0));
 (SStore (EV "mcols") (EBin Add (EBin Add (EBin Mul (EI 2) (EV "nFields")) (EBin Mul (EV "nnz") (EV "d1"))) (EV "d2")) (EI 0));
 (SStore (EV "mcols") (EBin Add (EBin Add (EBin Mul (EI 3) (EV "nFields")) (EBin Mul (EV "nnz") (EV "d1"))) (EV "d2")) (EBin Add (EBin Mul (EBin Sub (EBin Sub (EV "nn") (EBin Mul (EV "nx") (EV "ny"))) (EI 1)) (EV "nFields")) (EV "d2")));
 (SStore (EV "mcols") (EBin Add (EBin Add (EBin Mul (EI 4) (EV "nFields")) (EBin Mul (EV "nnz") (EV "d1"))) (EV "d2")) (EBin Add (EBin Mul (EBin Sub (EV "nn") (EBin Mul (EV "nx") (EV "ny"))) (EV "nFields")) (EV "d2")));
 (SStore (EV "mcols") (EBin Add (EBin Add (EBin Mul (EI 5) (EV "nFields")) (EBin Mul (EV "nnz") (EV "d1"))) (EV "d2")) (EBin Add (EBin Mul (EBin Add (EBin Sub (EV "nn") (EBin Mul (EV "nx") (EV "ny"))) (EI 1)) (EV "nFields")) (EV "d2")));
 (SStore (EV "mcols") (EBin Add (EBin Add (EBin Mul (EI 6) (EV "nFields")) (EBin Mul (EV "nnz") (EV "d1"))) (EV "d2")) (EBin Add (EBin Mul (EBin Sub (EBin Add (EBin Sub (EV "nn") (EBin Mul (EV "nx") (EV "ny"))) (EV "nx")) (EI 1)) (EV "nFields")) (EV "d2")));
 (SStore (EV "mcols") (EBin Add (EBin Add (EBin Mul (EI 7) (EV "nFields")) (EBin Mul (EV "nnz") (EV "d1"))) (EV "d2")) (EBin Add (EBin Mul (EBin Add (EBin Sub (EV "nn") (EBin Mul (EV "nx") (EV "ny"))) (EV "nx")) (EV "nFields")) (EV "d2")));
 (SStore (EV "mcols") (EBin Add (EBin Add (EBin Mul (EI 8) (EV "nFields")) (EBin Mul (EV "nnz") (EV "d1"))) (EV "d2")) (EBin Add (EBin Mul (EBin Add (EBin Add (EBin Sub (EV "nn") (EBin Mul (EV "nx") (EV "ny"))) (EV "nx")) (EI 1)) (EV "nFields")) (EV "d2")));
 (SStore (EV "mcols") (EBin Add (EBin Add (EBin Mul (EI 9) (EV "nFields")) (EBin Mul (EV "nnz") (EV "d1"))) (EV "d2")) (EI 0));
 (SStore (EV "mcols") (EBin Add (EBin Add (EBin Mul (EI 10) (EV "nFields")) (EBin Mul (EV "nnz") (EV "d1"))) (EV "d2")) (EI 0));
 (SStore (EV "mcols") (EBin Add (EBin Add (EBin Mul (EI 11) (EV "nFields")) (EBin Mul (EV "nnz") (EV "d1"))) (EV "d2")) (EI 0));
 (SStore (EV "mcols") (EBin Add (EBin Add (EBin Mul (EI 12) (EV "nFields")) (EBin Mul (EV "nnz") (EV "d1"))) (EV "d2")) (EBin Add (EBin Mul (EBin Sub (EV "nn") (EI 1)) (EV "nFields")) (EV "d2")));
 (SStore (EV "mcols") (EBin Add (EBin Add (EBin Mul (EI 13) (EV "nFields")) (EBin Mul (EV "nnz") (EV "d1"))) (EV "d2")) (EBin Add (EBin Mul (EV "nn") (EV "nFields")) (EV "d2")));
 (SStore (EV "mcols") (EBin Add (EBin Add (EBin Mul (EI 14) (EV "nFields")) (EBin Mul (EV "nnz") (EV "d1"))) (EV "d2")) (EBin Add (EBin Mul (EBin Add (EV "nn") (EI 1)) (EV "nFields")) (EV "d2")));
 (SStore (EV "mcols") (EBin Add (EBin Add (EBin Mul (EI 15) (EV "nFields")) (EBin Mul (EV "nnz") (EV "d1"))) (EV "d2")) (EBin Add (EBin Mul (EBin Sub (EBin Add (EV "nn") (EV "nx")) (EI 1)) (EV "nFields")) (EV "d2")));
 (SStore (EV "mcols") (EBin Add (EBin Add (EBin Mul (EI 16) (EV "nFields")) (EBin Mul (EV "nnz") (EV "d1"))) (EV "d2")) (EBin Add (EBin Mul (EBin Add (EV "nn") (EV "nx")) (EV "nFields")) (EV "d2")));
 (SStore (EV "mcols") (EBin Add (EBin Add (EBin Mul (EI 17) (EV "nFields")) (EBin Mul (EV "nnz") (EV "d1"))) (EV "d2")) (EBin Add (EBin Mul (EBin Add (EBin Add (EV "nn") (EV "nx")) (EI 1)) (EV "nFields")) (EV "d2")));
 (SStore (EV "mcols") (EBin Add (EBin Add (EBin Mul (EI 18) (EV "nFields")) (EBin Mul (EV "nnz") (EV "d1"))) (EV "d2")) (EI 0));
 (SStore (EV "mcols") (EBin Add (EBin Add (EBin Mul (EI 19) (EV "nFields")) (EBin Mul (EV "nnz") (EV "d1"))) (EV "d2")) (EI 0));
 (SStore (EV "mcols") (EBin Add (EBin Add (EBin Mul (EI 20) (EV "nFields")) (EBin Mul (EV "nnz") (EV "d1"))) (EV "d2")) (EI 0));
 (SStore (EV "mcols") (EBin Add (EBin Add (EBin Mul (EI 21) (EV "nFields")) (EBin Mul (EV "nnz") (EV "d1"))) (EV "d2")) (EBin Add (EBin Mul (EBin Sub (EBin Add (EV "nn") (EBin Mul (EV "nx") (EV "ny"))) (EI 1)) (EV "nFields")) (EV "d2")));
 (SStore (EV "mcols") (EBin Add (EBin Add (EBin Mul (EI 22) (EV "nFields")) (EBin Mul (EV "nnz") (EV "d1"))) (EV "d2")) (EBin Add (EBin Mul (EBin Add (EV "nn") (EBin Mul (EV "nx") (EV "ny"))) (EV "nFields")) (EV "d2")));
 (SStore (EV "mcols") (EBin Add (EBin Add (EBin Mul (EI 23) (EV "nFields")) (EBin Mul (EV "nnz") (EV "d1"))) (EV "d2")) (EBin Add (EBin Mul (EBin Add (EBin Add (EV "nn") (EBin Mul (EV "nx") (EV "ny"))) (EI 1)) (EV "nFields")) (EV "d2")));
 (SStore (EV "mcols") (EBin Add (EBin Add (EBin Mul (EI 24) (EV "nFields")) (EBin Mul (EV "nnz") (EV "d1"))) (EV "d2")) (EBin Add (EBin Mul (EBin Sub (EBin Add (EBin Add (EV "nn") (EBin Mul (EV "nx") (EV "ny"))) (EV "nx")) (EI 1)) (EV "nFields")) (EV "d2")));
 (SStore (EV "mcols") (EBin Add (EBin Add (EBin Mul (EI 25) (EV "nFields")) (EBin Mul (EV "nnz") (EV "d1"))) (EV "d2")) (EBin Add (EBin Mul (EBin Add (EBin Add (EV "nn") (EBin Mul (EV "nx") (EV "ny"))) (EV "nx")) (EV "nFields")) (EV "d2")));
 (SStore (EV "mcols") (EBin Add (EBin Add (EBin Mul (EI 26) (EV "nFields")) (EBin Mul (EV "nnz") (EV "d1"))) (EV "d2")) (EBin Add (EBin Mul (EBin Add (EBin Add (EBin Add (EV "nn") (EBin Mul (EV "nx") (EV "ny"))) (EV "nx")) (EI 1)) (EV "nFields")) (EV "d2")))])))])));
 (SFor "i" (EI 1) (EBin Lt (EV "i") (EBin Sub (EV "nx") (EI 1))) (SFor "k" (EI 1) (EBin Lt (EV "k") (EBin Sub (EV "nz") (EI 1))) (block [(SSet "nn" (EBin Add (EBin Add (EBin Mul (EBin Mul (EV "k") (EV "nx")) (EV "ny")) (EBin Mul (EBin Sub (EV "ny") (EI 1)) (EV "nx"))) (EV "i")));
 (SSet "mcols" (EAdr (EFld (EV "m") "cols") (EBin Mul (EBin Mul (EV "nn") (EV "nFields")) (EV "nnz"))));
 (SFor "d1" (EI 0) (EBin Lt (EV "d1") (EV "nFields")) (SFor "d2" (EI 0) (EBin Lt (EV "d2") (EV "nFields")) (block [(SStore (EV "mcols") (EBin Add (EBin Add (EBin Mul (EI 0) (EV "nFields")) (EBin Mul (EV "nnz") (EV "d1"))) (EV "d2")) (EBin Add (EBin Mul (EBin Sub (EBin Sub (EBin Sub (EV "nn") (EBin Mul (EV "nx") (EV "ny"))) (EV "nx")) (EI 1)) (EV "nFields")) (EV "d2")));
 (SStore (EV "mcols") (EBin Add (EBin Add (EBin Mul (EI 1) (EV "nFields")) (EBin Mul (EV "nnz") (EV "d1"))) (EV "d2")) (EBin Add (EBin Mul (EBin Sub (EBin Sub (EV "nn") (EBin Mul (EV "nx") (EV "ny"))) (EV "nx")) (EV "nFields")) (EV "d2")));
 (SStore (EV "mcols") (EBin Add (EBin Add (EBin Mul (EI 2) (EV "nFields")) (EBin Mul (EV "nnz") (EV "d1"))) (EV "d2")) (EBin Add (EBin Mul (EBin Add (EBin Sub (EBin Sub (EV "nn") (EBin Mul (EV "nx") (EV "ny"))) (EV "nx")) (EI 1)) (EV "nFields")) (EV "d2")));
 (SStore (EV "mcols") (EBin Add (EBin Add (EBin Mul (EI 3) (EV "nFields")) (EBin Mul (EV "nnz") (EV "d1"))) (EV "d2")) (EBin Add (EBin Mul (EBin Sub (EBin Sub (EV "nn") (EBin Mul (EV "nx") (EV "ny"))) (EI 1)) (EV "nFields")) (EV "d2")));
 (SStore (EV "mcols") (EBin Add (EBin Add (EBin Mul (EI 4) (EV "nFields")) (EBin Mul (EV "nnz") (EV "d1"))) (EV "d2")) (EBin Add (EBin Mul (EBin Sub (EV "nn") (EBin Mul (EV "nx") (EV "ny"))) (EV "nFields")) (EV "d2")));
 (SStore (EV "mcols") (EBin Add (EBin Add (EBin Mul (EI 5) (EV "nFields")) (EBin Mul (EV "nnz") (EV "d1"))) (EV "d2")) (EBin Add (EBin Mul (EBin Add (EBin Sub (EV "nn") (EBin Mul (EV "nx") (EV "ny"))) (EI 1)) (EV "nFields")) (EV "d2")));
 (SStore (EV "mcols") (EBin Add (EBin Add (EBin Mul (EI 6) (EV "nFields")) (EBin Mul (EV "nnz") (EV "d1"))) (EV "d2")) (EI 0));
 (SStore (EV "mcols") (EBin Add (EBin Add (EBin Mul (EI 7) (EV "nFields")) (EBin Mul (EV "nnz") (EV "d1"))) (EV "d2")) (EI 0));
 (SStore (EV "mcols") (EBin Add (EBin Add (EBin Mul (EI 8) (EV "nFields")) (EBin Mul (EV "nnz") (EV "d1"))) (EV "d2")) (EI 0));
 (SStore (EV "mcols") (EBin Add (EBin Add (EBin Mul (EI 9) (EV "nFields")) (EBin Mul (EV "nnz") (EV "d1"))) (EV "d2")) (EBin Add (EBin Mul (EBin Sub (EBin Sub (EV "nn") (EV "nx")) (EI 1)) (EV "nFields")) (EV "d2")));
 (SStore (EV "mcols") (EBin Add (EBin Add (EBin Mul (EI 10) (EV "nFields")) (EBin Mul (EV "nnz") (EV "d1"))) (EV "d2")) (EBin Add (EBin Mul (EBin Sub (EV "nn") (EV "nx")) (EV "nFields")) (EV "d2")));
 (SStore (EV "mcols") (EBin Add (EBin Add (EBin Mul (EI 11) (EV "nFields")) (EBin Mul (EV "nnz") (EV "d1"))) (EV "d2")) (EBin Add (EBin Mul (EBin Add (EBin Sub (EV "nn") (EV "nx")) (EI 1)) (EV "nFields")) (EV "d2")));
 (SStore (EV "mcols") (EBin Add (EBin Add (EBin Mul (EI 12) (EV "nFields")) (EBin Mul (EV "nnz") (EV "d1"))) (EV "d2")) (EBin Add (EBin Mul (EBin Sub (EV "nn") (EI 1)) (EV "nFields")) (EV "d2")));
 (SStore (EV "mcols") (EBin Add (EBin Add (EBin Mul (EI 13) (EV "nFields")) (EBin Mul (EV "nnz") (EV "d1"))) (EV "d2")) (EBin Add (EBin Mul (EV "nn") (EV "nFields")) (EV "d2")));
 (SStore (EV "mcols") (EBin Add (EBin Add (EBin Mul (EI 14) (EV "nFields")) (EBin Mul (EV "nnz") (EV "d1"))) (EV "d2")) (EBin Add (EBin Mul (EBin Add (EV "nn") (EI 1)) (EV "nFields")) (EV "d2")));
 (SStore (EV "mcols") (EBin Add (EBin Add (EBin Mul (EI 15) (EV "nFields")) (EBin Mul (EV "nnz") (EV "d1"))) (EV "d2")) (EI 0));
 (SStore (EV "mcols") (EBin Add (EBin Add (EBin Mul (EI 16) (EV "nFields")) (EBin Mul (EV "nnz") (EV "d1"))) (EV "d2")) (EI 0));
 (SStore (EV "mcols") (EBin Add (EBin Add (EBin Mul (EI 17) (EV "nFields")) (EBin Mul (EV "nnz") (EV "d1"))) (EV "d2")) (EI 0));
 (SStore (EV "mcols") (EBin Add (EBin Add (EBin Mul (EI 18) (EV "nFields")) (EBin Mul (EV "nnz") (EV "d1"))) (EV "d2")) (EBin Add (EBin Mul (EBin Sub (EBin Sub (EBin Add (EV "nn") (EBin Mul (EV "nx") (EV "ny"))) (EV "nx")) (EI 1)) (EV "nFields")) (EV "d2")));
 (SStore (EV "mcols") (EBin Add (EBin Add (EBin Mul (EI 19) (EV "nFields")) (EBin Mul (EV "nnz") (EV "d1"))) (EV "d2")) (EBin Add (EBin Mul (EBin Sub (EBin Add (EV "nn") (EBin Mul (EV "nx") (EV "ny"))) (EV "nx")) (EV "nFields")) (EV "d2")));
 (SStore (EV "mcols") (EBin Add (EBin Add (EBin Mul (EI 20) (EV "nFields")) (EBin Mul (EV "nnz") (EV "d1"))) (EV "d2")) (EBin Add (EBin Mul (EBin Add (EBin Sub (EBin Add (EV "nn") (EBin Mul (EV "nx") (EV "ny"))) (EV "nx")) (EI 1)) (EV "nFields")) (EV "d2")));
 (SStore (EV "mcols") (EBin Add (EBin Add (EBin Mul (EI 21) (EV "nFields")) (EBin Mul (EV "nnz") (EV "d1"))) (EV "d2")) (EBin Add (EBin Mul (EBin Sub (EBin Add (EV "nn") (EBin Mul (EV "nx") (EV "ny"))) (EI 1)) (EV "nFields")) (EV "d2")));
 (SStore (EV "mcols") (EBin Add (EBin Add (EBin Mul (EI 22) (EV "nFields")) (EBin Mul (EV "nnz") (EV "d1"))) (EV "d2")) (EBin Add (EBin Mul (EBin Add (EV "nn") (EBin Mul (EV "nx") (EV "ny"))) (EV "nFields")) (EV "d2")));
 (SStore (EV "mcols") (EBin Add (EBin Add (EBin Mul (EI 23) (EV "nFields")) (EBin Mul (EV "nnz") (EV "d1"))) (EV "d2")) (EBin Add (EBin Mul (EBin Add (EBin Add (EV "nn") (EBin Mul (EV "nx") (EV "ny"))) (EI 1)) (EV "nFields")) (EV "d2")));
 (SStore (EV "mcols") (EBin Add (EBin Add (EBin Mul (EI 24) (EV "nFields")) (EBin Mul (EV "nnz") (EV "d1"))) (EV "d2")) (EI 0));
 (SStore (EV "mcols") (EBin Add (EBin Add (EBin Mul (EI 25) (EV "nFields")) (EBin Mul (EV "nnz") (EV "d1"))) (EV "d2")) (EI 0));
 (SStore (EV "mcols") (EBin Add (EBin Add (EBin Mul (EI 26) (EV "nFields")) (EBin Mul (EV "nnz") (EV "d1"))) (EV "d2")) (EI 0))])))])));
 (SFor "j" (EI 1) (EBin Lt (EV "j") (EBin Sub (EV "ny") (EI 1))) (SFor "k" (EI 1) (EBin Lt (EV "k") (EBin Sub (EV "nz") (EI 1))) (block [(SSet "nn" (EBin Add (EBin Add (EBin Mul (EBin Mul (EV "k") (EV "nx")) (EV "ny")) (EBin Mul (EV "j") (EV "nx"))) (EI 0)));
 (SSet "mcols" (EAdr (EFld (EV "m") "cols") (EBin Mul (EBin Mul (EV "nn") (EV "nFields")) (EV "nnz"))));
 (SFor "d1" (EI 0) (EBin Lt (EV "d1") (EV "nFields")) (SFor "d2" (EI 0) (EBin Lt (EV "d2") (EV "nFields")) (block [(SStore (EV "mcols") (EBin Add (EBin Add (EBin Mul (EI 0) (EV "nFields")) (EBin Mul (EV "nnz") (EV "d1"))) (EV "d2")) (EI 0));
 (SStore (EV "mcols") (EBin Add (EBin Add (EBin Mul (EI 1) (EV "nFields")) (EBin Mul (EV "nnz") (EV "d1"))) (EV "d2")) (EBin Add (EBin Mul (EBin Sub (EBin Sub (EV "nn") (EBin Mul (EV "nx") (EV "ny"))) (EV "nx")) (EV "nFields")) (EV "d2")));
 (SStore (EV "mcols") (EBin Add (EBin Add (EBin Mul (EI 2) (EV "nFields")) (EBin Mul (EV "nnz") (EV "d1"))) (EV "d2")) (EBin Add (EBin Mul (EBin Add (EBin Sub (EBin Sub (EV "nn") (EBin Mul (EV "nx") (EV "ny"))) (EV "nx")) (EI 1)) (EV "nFields")) (EV "d2")));
 (SStore (EV "mcols") (EBin Add (EBin Add (EBin Mul (EI 3) (EV "nFields")) (EBin Mul (EV "nnz") (EV "d1"))) (EV "d2")) (EI 0));
 (SStore (EV "mcols") (EBin Add (EBin Add (EBin Mul (EI 4) (EV "nFields")) (EBin Mul (EV "nnz") (EV "d1"))) (EV "d2")) (EBin Add (EBin Mul (EBin Sub (EV "nn") (EBin Mul (EV "nx") (EV "ny"))) (EV "nFields")) (EV "d2")));
 (SStore (EV "mcols") (EBin Add (EBin Add (EBin Mul (EI 5) (EV "nFields")) (EBin Mul (EV "nnz") (EV "d1"))) (EV "d2")) (EBin Add (EBin Mul (EBin Add (EBin Sub (EV "nn") (EBin Mul (EV "nx") (EV "ny"))) (EI 1)) (EV "nFields")) (EV "d2")));
 (SStore (EV "mcols") (EBin Add (EBin Add (EBin Mul (EI 6) (EV "nFields")) (EBin Mul (EV "nnz") (EV "d1"))) (EV "d2")) (EI 0));
 (SStore (EV "mcols") (EBin Add (EBin Add (EBin Mul (EI 7) (EV "nFields")) (EBin Mul (EV "nnz") (EV "d1"))) (EV "d2")) (EBin Add (EBin Mul (EBin Add (EBin Sub (EV "nn") (EBin Mul (EV "nx") (EV "ny"))) (EV "nx")) (EV "nFields")) (EV "d2")));
 (SStore (EV "mcols") (EBin Add (EBin Add (EBin Mul (EI 8) (EV "nFields")) (EBin Mul (EV "nnz") (EV "d1"))) (EV "d2")) (EBin Add (EBin Mul (EBin Add (EBin Add (EBin Sub (EV "nn") (EBin Mul (EV "nx") (EV "ny"))) (EV "nx")) (EI 1)) (EV "nFields")) (EV "d2")));
 (SStore (EV "mcols") (EBin Add (EBin Add (EBin Mul (EI 9) (EV "nFields")) (EBin Mul (EV "nnz") (EV "d1"))) (EV "d2")) (EI 0));
 (SStore (EV "mcols") (EBin Add (EBin Add (EBin Mul (EI 10) (EV "nFields")) (EBin Mul (EV "nnz") (EV "d1"))) (EV "d2")) (EBin Add (EBin Mul (EBin Sub (EV "nn") (EV "nx")) (EV "nFields")) (EV "d2")));
 (SStore (EV "mcols") (EBin Add (EBin Add (EBin Mul (EI 11) (EV "nFields")) (EBin Mul (EV "nnz") (EV "d1"))) (EV "d2")) (EBin Add (EBin Mul (EBin Add (EBin Sub (EV "nn") (EV "nx")) (EI 1)) (EV "nFields")) (EV "d2")));
 (SStore (EV "mcols") (EBin Add (EBin Add (EBin Mul (EI 12) (EV "nFields")) (EBin Mul (EV "nnz") (EV "d1"))) (EV "d2")) (EI 0));
 (SStore (EV "mcols") (EBin Add (EBin Add (EBin Mul (EI 13) (EV "nFields")) (EBin Mul (EV "nnz") (EV "d1"))) (EV "d2")) (EBin Add (EBin Mul (EV "nn") (EV "nFields")) (EV "d2")));
 (SStore (EV "mcols") (EBin Add (EBin Add (EBin Mul (EI 14) (EV "nFields")) (EBin Mul (EV "nnz") (EV "d1"))) (EV "d2")) (EBin Add (EBin Mul (EBin Add (EV "nn") (EI 1)) (EV "nFields")) (EV "d2")));
 (SStore (EV "mcols") (EBin Add (EBin Add (EBin Mul (EI 15) (EV "nFields")) (EBin Mul (EV "nnz") (EV "d1"))) (EV "d2")) (EI 0));
 (SStore (EV "mcols") (EBin Add (EBin Add (EBin Mul (EI 16) (EV "nFields")) (EBin Mul (EV "nnz") (EV "d1"))) (EV "d2")) (EBin Add (EBin Mul (EBin Add (EV "nn") (EV "nx")) (EV "nFields")) (EV "d2")));
 (SStore (EV "mcols") (EBin Add (EBin Add (EBin Mul (EI 17) (EV "nFields")) (EBin Mul (EV "nnz") (EV "d1"))) (EV "d2")) (EBin Add (EBin Mul (EBin Add (EBin Add (EV "nn") (EV "nx")) (EI 1)) (EV "nFields")) (EV "d2")));
 (SStore (EV "mcols") (EBin Add (EBin Add (EBin Mul (EI 18) (EV "nFields")) (EBin Mul (EV "nnz") (EV "d1"))) (EV "d2")) (EI 0));
 (SStore (EV "mcols") (EBin Add (EBin Add (EBin Mul (EI 19) (EV "nFields")) (EBin Mul (EV "nnz") (EV "d1"))) (EV "d2")) (EBin Add (EBin Mul (EBin Sub (EBin Add (EV "nn") (EBin Mul (EV "nx") (EV "ny"))) (EV "nx")) (EV "nFields")) (EV "d2")));
 (SStore (EV "mcols") (EBin Add (EBin Add (EBin Mul (EI 20) (EV "nFields")) (EBin Mul (EV "nnz") (EV "d1"))) (EV "d2")) (EBin Add (EBin Mul (EBin Add (EBin Sub (EBin Add (EV "nn") (EBin Mul (EV "nx") (EV "ny"))) (EV "nx")) (EI 1)) (EV "nFields")) (EV "d2")));
 (SStore (EV "mcols") (EBin Add (EBin Add (EBin Mul (EI 21) (EV "nFields")) (EBin Mul (EV "nnz") (EV "d1"))) (EV "d2")) (EI 0));
 (SStore (EV "mcols") (EBin Add (EBin Add (EBin Mul (EI 22) (EV "nFields")) (EBin Mul (EV "nnz") (EV "d1"))) (EV "d2")) (EBin Add (EBin Mul (EBin Add (EV "nn") (EBin Mul (EV "nx") (EV "ny"))) (EV "nFields")) (EV "d2")));
 (SStore (EV "mcols") (EBin Add (EBin Add (EBin Mul (EI 23) (EV "nFields")) (EBin Mul (EV "nnz") (EV "d1"))) (EV "d2")) (EBin Add (EBin Mul (EBin Add (EBin Add (EV "nn") (EBin Mul (EV "nx") (EV "ny"))) (EI 1)) (EV "nFields")) (EV "d2")));
 (SStore (EV "mcols") (EBin Add (EBin Add (EBin Mul (EI 24) (EV "nFields")) (EBin Mul (EV "nnz") (EV "d1"))) (EV "d2")) (EI 0));
 (SStore (EV "mcols") (EBin Add (EBin Add (EBin Mul (EI 25) (EV "nFields")) (EBin Mul (EV "nnz") (EV "d1"))) (EV "d2")) (EBin Add (EBin Mul (EBin Add (EBin Add (EV "nn") (EBin Mul (EV "nx") (EV "ny"))) (EV "nx")) (EV "nFields")) (EV "d2")));
 (SStore (EV "mcols") (EBin Add (EBin Add (EBin Mul (EI 26) (EV "nFields")) (EBin Mul (EV "nnz") (EV "d1"))) (EV "d2")) (EBin Add (EBin Mul (EBin Add (EBin Add (EBin Add (EV "nn") (EBin Mul (EV "nx") (EV "ny"))) (EV "nx")) (EI 1)) (EV "nFields")) (EV "d2")))])))])));
 (SFor "j" (EI 1) (EBin Lt (EV "j") (EBin Sub (EV "ny") (EI 1))) (SFor "k" (EI 1) (EBin Lt (EV "k") (EBin Sub (EV "nz") (EI 1))) (block [(SSet "nn" (EBin Add (EBin Add (EBin Mul (EBin Mul (EV "k") (EV "nx")) (EV "ny")) (EBin Mul (EV "j") (EV "nx"))) (EBin Sub (EV "nx") (EI 1))));
 (SSet "mcols" (EAdr (EFld (EV "m") "cols") (EBin Mul (EBin Mul (EV "nn") (EV "nFields")) (EV "nnz"))));
 (SFor "d1" (EI 0) (EBin Lt (EV "d1") (EV "nFields")) (SFor "d2" (EI 0) (EBin Lt (EV "d2") (EV "nFields")) (block [(SStore (EV "mcols") (EBin Add (EBin Add (EBin Mul (EI 0) (EV "nFields")) (EBin Mul (EV "nnz") (EV "d1"))) (EV "d2")) (EBin Add (EBin Mul (EBin Sub (EBin Sub (EBin Sub (EV "nn") (EBin Mul (EV "nx") (EV "ny"))) (EV "nx")) (EI 1)) (EV "nFields")) (EV "d2")));
 (SStore (EV "mcols") (EBin Add (EBin Add (EBin Mul (EI 1) (EV "nFields")) (EBin Mul (EV "nnz") (EV "d1"))) (EV "d2")) (EBin Add (EBin Mul (EBin Sub (EBin Sub (EV "nn") (EBin Mul (EV "nx") (EV "ny"))) (EV "nx")) (EV "nFields")) (EV "d2")));
 (SStore (EV "mcols") (EBin Add (EBin Add (EBin Mul (EI 2) (EV "nFields")) (EBin Mul (EV "nnz") (EV "d1"))) (EV "d2")) (EI 0));
 (SStore (EV "mcols") (EBin Add (EBin Add (EBin Mul (EI 3) (EV "nFields")) (EBin Mul (EV "nnz") (EV "d1"))) (EV "d2")) (EBin Add (EBin Mul (EBin Sub (EBin Sub (EV "nn") (EBin Mul (EV "nx") (EV "ny"))) (EI 1)) (EV "nFields")) (EV "d2")));
 (SStore (EV "mcols") (EBin Add (EBin Add (EBin Mul (EI 4) (EV "nFields")) (EBin Mul (EV "nnz") (EV "d1"))) (EV "d2")) (EBin Add (EBin Mul (EBin Sub (EV "nn") (EBin Mul (EV "nx") (EV "ny"))) (EV "nFields")) (EV "d2")));
 (SStore (EV "mcols") (EBin Add (EBin Add (EBin Mul (EI 5) (EV "nFields")) (EBin Mul (EV "nnz") (EV "d1"))) (EV "d2")) (EI 0));
 (SStore (EV "mcols") (EBin Add (EBin Add (EBin Mul (EI 6) (EV "nFields")) (EBin Mul (EV "nnz") (EV "d1"))) (EV "d2")) (EBin Add (EBin Mul (EBin Sub (EBin Add (EBin Sub (EV "nn") (EBin Mul (EV "nx") (EV "ny"))) (EV "nx")) (EI 1)) (EV "nFields")) (EV "d2")));
 (SStore (EV "mcols") (EBin Add (EBin Add (EBin Mul (EI 7) (EV "nFields")) (EBin Mul (EV "nnz") (EV "d1"))) (EV "d2")) (EBin Add (EBin Mul (EBin Add (EBin Sub (EV "nn") (EBin Mul (EV "nx") (EV "ny"))) (EV "nx")) (EV "nFields")) (EV "d2")));
 (SStore (EV "mcols") (EBin Add (EBin Add (EBin Mul (EI 8) (EV "nFields")) (EBin Mul (EV "nnz") (EV "d1"))) (EV "d2")) (EI 0));
 (SStore (EV "mcols") (EBin Add (EBin Add (EBin Mul (EI 9) (EV "nFields")) (EBin Mul (EV "nnz") (EV "d1"))) (EV "d2")) (EBin Add (EBin Mul (EBin Sub (EBin Sub (EV "nn") (EV "nx")) (EI 1)) (EV "nFields")) (EV "d2")));
 (SStore (EV "mcols") (EBin Add (EBin Add (EBin Mul (EI 10) (EV "nFields")) (EBin Mul (EV "nnz") (EV "d1"))) (EV "d2")) (EBin Add (EBin Mul (EBin Sub (EV "nn") (EV "nx")) (EV "nFields")) (EV "d2")));
 (SStore (EV "mcols") (EBin Add (EBin Add (EBin Mul (EI 11) (EV "nFields")) (EBin Mul (EV "nnz") (EV "d1"))) (EV "d2")) (EI 0));
 (SStore (EV "mcols") (EBin Add (EBin Add (EBin Mul (EI 12) (EV "nFields")) (EBin Mul (EV "nnz") (EV "d1"))) (EV "d2")) (EBin Add (EBin Mul (EBin Sub (EV "nn") (EI 1)) (EV "nFields")) (EV "d2")));
 (SStore (EV "mcols") (EBin Add (EBin Add (EBin Mul (EI 13) (EV "nFields")) (EBin Mul (EV "nnz") (EV "d1"))) (EV "d2")) (EBin Add (EBin Mul (EV "nn") (EV "nFields")) (EV "d2")));
 (SStore (EV "mcols") (EBin Add (EBin Add (EBin Mul (EI 14) (EV "nFields")) (EBin Mul (EV "nnz") (EV "d1"))) (EV "d2")) (EI 0));
 (SStore (EV "mcols") (EBin Add (EBin Add (EBin Mul (EI 15) (EV "nFields")) (EBin Mul (EV "nnz") (EV "d1"))) (EV "d2")) (EBin Add (EBin Mul (EBin Sub (EBin Add (EV "nn") (EV "nx")) (EI 1)) (EV "nFields")) (EV "d2")));
 (SStore (EV "mcols") (EBin Add (EBin Add (EBin Mul (EI 16) (EV "nFields")) (EBin Mul (EV "nnz") (EV "d1"))) (EV "d2")) (EBin Add (EBin Mul (EBin Add (EV "nn") (EV "nx")) (EV "nFields")) (EV "d2")));
 (SStore (EV "mcols") (EBin Add (EBin Add (EBin Mul (EI 17) (EV "nFields")) (EBin Mul (EV "nnz") (EV "d1"))) (EV "d2")) (EI 0));
 (SStore (EV "mcols") (EBin Add (EBin Add (EBin Mul (EI 18) (EV "nFields")) (EBin Mul (EV "nnz") (EV "d1"))) (EV "d2")) (EBin Add (EBin Mul (EBin Sub (EBin Sub (EBin Add (EV "nn") (EBin Mul (EV "nx") (EV "ny"))) (EV "nx")) (EI 1)) (EV "nFields")) (EV "d2")));
 (SStore (EV "mcols") (EBin Add (EBin Add (EBin Mul (EI 19) (EV "nFields")) (EBin Mul (EV "nnz") (EV "d1"))) (EV "d2")) (EBin Add (EBin Mul (EBin Sub (EBin Add (EV "nn") (EBin Mul (EV "nx") (EV "ny"))) (EV "nx")) (EV "nFields")) (EV "d2")));
 (SStore (EV "mcols") (EBin Add (EBin Add (EBin Mul (EI 20) (EV "nFields")) (EBin Mul (EV "nnz") (EV "d1"))) (EV "d2")) (EI 0));
 (SStore (EV "mcols") (EBin Add (EBin Add (EBin Mul (EI 21) (EV "nFields")) (EBin Mul (EV "nnz") (EV "d1"))) (EV "d2")) (EBin Add (EBin Mul (EBin Sub (EBin Add (EV "nn") (EBin Mul (EV "nx") (EV "ny"))) (EI 1)) (EV "nFields")) (EV "d2")));
 (SStore (EV "mcols") (EBin Add (EBin Add (EBin Mul (EI 22) (EV "nFields")) (EBin Mul (EV "nnz") (EV "d1"))) (EV "d2")) (EBin Add (EBin Mul (EBin Add (EV "nn") (EBin Mul (EV "nx") (EV "ny"))) (EV "nFields")) (EV "d2")));
 (SStore (EV "mcols") (EBin Add (EBin Add (EBin Mul (EI 23) (EV "nFields")) (EBin Mul (EV "nnz") (EV "d1"))) (EV "d2")) (EI 0));
 (SStore (EV "mcols") (EBin Add (EBin Add (EBin Mul (EI 24) (EV "nFields")) (EBin Mul (EV "nnz") (EV "d1"))) (EV "d2")) (EBin Add (EBin Mul (EBin Sub (EBin Add (EBin Add (EV "nn") (EBin Mul (EV "nx") (EV "ny"))) (EV "nx")) (EI 1)) (EV "nFields")) (EV "d2")));
 (SStore (EV "mcols") (EBin Add (EBin Add (EBin Mul (EI 25) (EV "nFields")) (EBin Mul (EV "nnz") (EV "d1"))) (EV "d2")) (EBin Add (EBin Mul (EBin Add (EBin Add (EV "nn") (EBin Mul (EV "nx") (EV "ny"))) (EV "nx")) (EV "nFields")) (EV "d2")));
 (SStore (EV "mcols") (EBin Add (EBin Add (EBin Mul (EI 26) (EV "nFields")) (EBin Mul (EV "nnz") (EV "d1"))) (EV "d2")) (EI 0))])))])));
 (SFor "i" (EI 1) (EBin Lt (EV "i") (EBin Sub (EV "nx") (EI 1))) (SFor "j" (EI 1) (EBin Lt (EV "j") (EBin Sub (EV "ny") (EI 1))) (SFor "k" (EI 1) (EBin Lt (EV "k") (EBin Sub (EV "nz") (EI 1))) (block [(SSet "nn" (EBin Add (EBin Add (EBin Mul (EBin Mul (EV "k") (EV "nx")) (EV "ny")) (EBin Mul (EV "j") (EV "nx"))) (EV "i")));
 (SSet "mcols" (EAdr (EFld (EV "m") "cols") (EBin Mul (EBin Mul (EV "nn") (EV "nFields")) (EV "nnz"))));
 (SFor "d1" (EI 0) (EBin Lt (EV "d1") (EV "nFields")) (SFor "d2" (EI 0) (EBin Lt (EV "d2") (EV "nFields")) (block [(SStore (EV "mcols") (EBin Add (EBin Add (EBin Mul (EI 0) (EV "nFields")) (EBin Mul (EV "nnz") (EV "d1"))) (EV "d2")) (EBin Add (EBin Mul (EBin Sub (EBin Sub (EBin Sub (EV "nn") (EBin Mul (EV "nx") (EV "ny"))) (EV "nx")) (EI 1)) (EV "nFields")) (EV "d2")));
 (SStore (EV "mcols") (EBin Add (EBin Add (EBin Mul (EI 1) (EV "nFields")) (EBin Mul (EV "nnz") (EV "d1"))) (EV "d2")) (EBin Add (EBin Mul (EBin Sub (EBin Sub (EV "nn") (EBin Mul (EV "nx") (EV "ny"))) (EV "nx")) (EV "nFields")) (EV "d2")));
 (SStore (EV "mcols") (EBin Add (EBin Add (EBin Mul (EI 2) (EV "nFields")) (EBin Mul (EV "nnz") (EV "d1"))) (EV "d2")) (EBin Add (EBin Mul (EBin Add (EBin Sub (EBin Sub (EV "nn") (EBin Mul (EV "nx") (EV "ny"))) (EV "nx")) (EI 1)) (EV "nFields")) (EV "d2")));
 (SStore (EV "mcols") (EBin Add (EBin Add (EBin Mul (EI 3) (EV "nFields")) (EBin Mul (EV "nnz") (EV "d1"))) (EV "d2")) (EBin Add (EBin Mul (EBin Sub (EBin Sub (EV "nn") (EBin Mul (EV "nx") (EV "ny"))) (EI 1)) (EV "nFields")) (EV "d2")));
 (SStore (EV "mcols") (EBin Add (EBin Add (EBin Mul (EI 4) (EV "nFields")) (EBin Mul (EV "nnz") (EV "d1"))) (EV "d2")) (EBin Add (EBin Mul (EBin Sub (EV "nn") (EBin Mul (EV "nx") (EV "ny"))) (EV "nFields")) (EV "d2")));
 (SStore (EV "mcols") (EBin Add (EBin Add (EBin Mul (EI 5) (EV "nFields")) (EBin Mul (EV "nnz") (EV "d1"))) (EV "d2")) (EBin Add (EBin Mul (EBin Add (EBin Sub (EV "nn") (EBin Mul (EV "nx") (EV "ny"))) (EI 1)) (EV "nFields")) (EV "d2")));
 (SStore (EV "mcols") (EBin Add (EBin Add (EBin Mul (EI 6) (EV "nFields")) (EBin Mul (EV "nnz") (EV "d1"))) (EV "d2")) (EBin Add (EBin Mul (EBin Sub (EBin Add (EBin Sub (EV "nn") (EBin Mul (EV "nx") (EV "ny"))) (EV "nx")) (EI 1)) (EV "nFields")) (EV "d2")));
 (SStore (EV "mcols") (EBin Add (EBin Add (EBin Mul (EI 7) (EV "nFields")) (EBin Mul (EV "nnz") (EV "d1"))) (EV "d2")) (EBin Add (EBin Mul (EBin Add (EBin Sub (EV "nn") (EBin Mul (EV "nx") (EV "ny"))) (EV "nx")) (EV "nFields")) (EV "d2")));
 (SStore (EV "mcols") (EBin Add (EBin Add (EBin Mul (EI 8) (EV "nFields")) (EBin Mul (EV "nnz") (EV "d1"))) (EV "d2")) (EBin Add (EBin Mul (EBin Add (EBin Add (EBin Sub (EV "nn") (EBin Mul (EV "nx") (EV "ny"))) (EV "nx")) (EI 1)) (EV "nFields")) (EV "d2")));
 (SStore (EV "mcols") (EBin Add (EBin Add (EBin Mul (EI 9) (EV "nFields")) (EBin Mul (EV "nnz") (EV "d1"))) (EV "d2")) (EBin Add (EBin Mul (EBin Sub (EBin Sub (EV "nn") (EV "nx")) (EI 1)) (EV "nFields")) (EV "d2")));
 (SStore (EV "mcols") (EBin Add (EBin Add (EBin Mul (EI 10) (EV "nFields")) (EBin Mul (EV "nnz") (EV "d1"))) (EV "d2")) (EBin Add (EBin Mul (EBin Sub (EV "nn") (EV "nx")) (EV "nFields")) (EV "d2")));
 (SStore (EV "mcols") (EBin Add (EBin Add (EBin Mul (EI 11) (EV "nFields")) (EBin Mul (EV "nnz") (EV "d1"))) (EV "d2")) (EBin Add (EBin Mul (EBin Add (EBin Sub (EV "nn") (EV "nx")) (EI 1)) (EV "nFields")) (EV "d2")));
 (SStore (EV "mcols") (EBin Add (EBin Add (EBin Mul (EI 12) (EV "nFields")) (EBin Mul (EV "nnz") (EV "d1"))) (EV "d2")) (EBin Add (EBin Mul (EBin Sub (EV "nn") (EI 1)) (EV "nFields")) (EV "d2")));
 (SStore (EV "mcols") (EBin Add (EBin Add (EBin Mul (EI 13) (EV "nFields")) (EBin Mul (EV "nnz") (EV "d1"))) (EV "d2")) (EBin Add (EBin Mul (EV "nn") (EV "nFields")) (EV "d2")));
 (SStore (EV "mcols") (EBin Add (EBin Add (EBin Mul (EI 14) (EV "nFields")) (EBin Mul (EV "nnz") (EV "d1"))) (EV "d2")) (EBin Add (EBin Mul (EBin Add (EV "nn") (EI 1)) (EV "nFields")) (EV "d2")));
 (SStore (EV "mcols") (EBin Add (EBin Add (EBin Mul (EI 15) (EV "nFields")) (EBin Mul (EV "nnz") (EV "d1"))) (EV "d2")) (EBin Add (EBin Mul (EBin Sub (EBin Add (EV "nn") (EV "nx")) (EI 1)) (EV "nFields")) (EV "d2")));
 (SStore (EV "mcols") (EBin Add (EBin Add (EBin Mul (EI 16) (EV "nFields")) (EBin Mul (EV "nnz") (EV "d1"))) (EV "d2")) (EBin Add (EBin Mul (EBin Add (EV "nn") (EV "nx")) (EV "nFields")) (EV "d2")));
 (SStore (EV "mcols") (EBin Add (EBin Add (EBin Mul (EI 17) (EV "nFields")) (EBin Mul (EV "nnz") (EV "d1"))) (EV "d2")) (EBin Add (EBin Mul (EBin Add (EBin Add (EV "nn") (EV "nx")) (EI 1)) (EV "nFields")) (EV "d2")));
 (SStore (EV "mcols") (EBin Add (EBin Add (EBin Mul (EI 18) (EV "nFields")) (EBin Mul (EV "nnz") (EV "d1"))) (EV "d2")) (EBin Add (EBin Mul (EBin Sub (EBin Sub (EBin Add (EV "nn") (EBin Mul (EV "nx") (EV "ny"))) (EV "nx")) (EI 1)) (EV "nFields")) (EV "d2")));
 (SStore (EV "mcols") (EBin Add (EBin Add (EBin Mul (EI 19) (EV "nFields")) (EBin Mul (EV "nnz") (EV "d1"))) (EV "d2")) (EBin Add (EBin Mul (EBin Sub (EBin Add (EV "nn") (EBin Mul (EV "nx") (EV "ny"))) (EV "nx")) (EV "nFields")) (EV "d2")));
 (SStore (EV "mcols") (EBin Add (EBin Add (EBin Mul (EI 20) (EV "nFields")) (EBin Mul (EV "nnz") (EV "d1"))) (EV "d2")) (EBin Add (EBin Mul (EBin Add (EBin Sub (EBin Add (EV "nn") (EBin Mul (EV "nx") (EV "ny"))) (EV "nx")) (EI 1)) (EV "nFields")) (EV "d2")));
 (SStore (EV "mcols") (EBin Add (EBin Add (EBin Mul (EI 21) (EV "nFields")) (EBin Mul (EV "nnz") (EV "d1"))) (EV "d2")) (EBin Add (EBin Mul (EBin Sub (EBin Add (EV "nn") (EBin Mul (EV "nx") (EV "ny"))) (EI 1)) (EV "nFields")) (EV "d2")));
 (SStore (EV "mcols") (EBin Add (EBin Add (EBin Mul (EI 22) (EV "nFields")) (EBin Mul (EV "nnz") (EV "d1"))) (EV "d2")) (EBin Add (EBin Mul (EBin Add (EV "nn") (EBin Mul (EV "nx") (EV "ny"))) (EV "nFields")) (EV "d2")));
 (SStore (EV "mcols") (EBin Add (EBin Add (EBin Mul (EI 23) (EV "nFields")) (EBin Mul (EV "nnz") (EV "d1"))) (EV "d2")) (EBin Add (EBin Mul (EBin Add (EBin Add (EV "nn") (EBin Mul (EV "nx") (EV "ny"))) (EI 1)) (EV "nFields")) (EV "d2")));
 (SStore (EV "mcols") (EBin Add (EBin Add (EBin Mul (EI 24) (EV "nFields")) (EBin Mul (EV "nnz") (EV "d1"))) (EV "d2")) (EBin Add (EBin Mul (EBin Sub (EBin Add (EBin Add (EV "nn") (EBin Mul (EV "nx") (EV "ny"))) (EV "nx")) (EI 1)) (EV "nFields")) (EV "d2")));
 (SStore (EV "mcols") (EBin Add (EBin Add (EBin Mul (EI 25) (EV "nFields")) (EBin Mul (EV "nnz") (EV "d1"))) (EV "d2")) (EBin Add (EBin Mul (EBin Add (EBin Add (EV "nn") (EBin Mul (EV "nx") (EV "ny"))) (EV "nx")) (EV "nFields")) (EV "d2")));
 (SStore (EV "mcols") (EBin Add (EBin Add (EBin Mul (EI 26) (EV "nFields")) (EBin Mul (EV "nnz") (EV "d1"))) (EV "d2")) (EBin Add (EBin Mul (EBin Add (EBin Add (EBin Add (EV "nn") (EBin Mul (EV "nx") (EV "ny"))) (EV "nx")) (EI 1)) (EV "nFields")) (EV "d2")))])))]))))]).

(** the functions by name *)
Definition ell_prog (f : string) : option fdef :=
  if String.eqb f "ell_free" then Some ast_ell_free else
  if String.eqb f "ell_set_zero_mat" then Some ast_ell_set_zero_mat else
  if String.eqb f "ell_mvp_2D" then Some ast_ell_mvp_2D else
  if String.eqb f "ell_solve_jacobi_2D" then Some ast_ell_solve_jacobi_2D else
  if String.eqb f "ell_solve_cgpd_2D" then Some ast_ell_solve_cgpd_2D else
  if String.eqb f "ell_solve_cgpd_struct" then Some ast_ell_solve_cgpd_struct else
  if String.eqb f "ell_add_struct2D" then Some ast_ell_add_struct2D else
  if String.eqb f "ell_add_struct3D" then Some ast_ell_add_struct3D else
  if String.eqb f "ell_set_bc_2D" then Some ast_ell_set_bc_2D else
  if String.eqb f "ell_set_bc_3D" then Some ast_ell_set_bc_3D else
  if String.eqb f "ell_init_2D" then Some ast_ell_init_2D else
  if String.eqb f "ell_init_3D" then Some ast_ell_init_3D else
  None.
