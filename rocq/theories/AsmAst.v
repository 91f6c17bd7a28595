(** Syntax trees of functions of /repo/src/assembly.cpp and solve.cpp (the cited lines), in
    the language of Clite.v.  Generated by tools/gen_ast_asm.py from the source text; do
    not edit. *)
From Coq Require Import String.
From Verif Require Import Base Clite EllAst.
Local Open Scope string_scope.
Local Open Scope Z_scope.

(** src/assembly.cpp:29-168 *)
Definition ast_set_displ : fdef := mkFun ["this"; "eps"]
 (SIf (EBin Eq (EFld (EV "this") "dim") (EI 2)) (block [(SFor "i" (EI 0) (EBin Lt (EV "i") (EFld (EV "this") "nx")) (block [(SSet "xcoor" (EBin Mul (EV "i") (EFld (EV "this") "dx")));
 (SSet "ycoor" (EDbl (EI 0)));
 (SSet "dux" (EBin Add (EBin Mul (EIdx (EV "eps") (EI 0)) (EV "xcoor")) (EBin Mul (EBin Mul (EDec 5 1) (EIdx (EV "eps") (EI 2))) (EV "ycoor"))));
 (SSet "duy" (EBin Add (EBin Mul (EBin Mul (EDec 5 1) (EIdx (EV "eps") (EI 2))) (EV "xcoor")) (EBin Mul (EIdx (EV "eps") (EI 1)) (EV "ycoor"))));
 (SStore (EFld (EV "this") "u") (EBin Mul (EV "i") (EFld (EV "this") "dim")) (EV "dux"));
 (SStore (EFld (EV "this") "u") (EBin Add (EBin Mul (EV "i") (EFld (EV "this") "dim")) (EI 1)) (EV "duy"))]));
 (SFor "i" (EI 0) (EBin Lt (EV "i") (EFld (EV "this") "nx")) (block [(SSet "xcoor" (EBin Mul (EV "i") (EFld (EV "this") "dx")));
 (SSet "ycoor" (EFld (EV "this") "ly"));
 (SSet "dux" (EBin Add (EBin Mul (EIdx (EV "eps") (EI 0)) (EV "xcoor")) (EBin Mul (EBin Mul (EDec 5 1) (EIdx (EV "eps") (EI 2))) (EV "ycoor"))));
 (SSet "duy" (EBin Add (EBin Mul (EBin Mul (EDec 5 1) (EIdx (EV "eps") (EI 2))) (EV "xcoor")) (EBin Mul (EIdx (EV "eps") (EI 1)) (EV "ycoor"))));
 (SStore (EFld (EV "this") "u") (EBin Mul (EBin Add (EV "i") (EBin Mul (EBin Sub (EFld (EV "this") "ny") (EI 1)) (EFld (EV "this") "nx"))) (EFld (EV "this") "dim")) (EV "dux"));
 (SStore (EFld (EV "this") "u") (EBin Add (EBin Mul (EBin Add (EV "i") (EBin Mul (EBin Sub (EFld (EV "this") "ny") (EI 1)) (EFld (EV "this") "nx"))) (EFld (EV "this") "dim")) (EI 1)) (EV "duy"))]));
 (SFor "i" (EI 0) (EBin Lt (EV "i") (EBin Sub (EFld (EV "this") "ny") (EI 2))) (block [(SSet "xcoor" (EDbl (EI 0)));
 (SSet "ycoor" (EBin Mul (EBin Add (EV "i") (EI 1)) (EFld (EV "this") "dy")));
 (SSet "dux" (EBin Add (EBin Mul (EIdx (EV "eps") (EI 0)) (EV "xcoor")) (EBin Mul (EBin Mul (EDec 5 1) (EIdx (EV "eps") (EI 2))) (EV "ycoor"))));
 (SSet "duy" (EBin Add (EBin Mul (EBin Mul (EDec 5 1) (EIdx (EV "eps") (EI 2))) (EV "xcoor")) (EBin Mul (EIdx (EV "eps") (EI 1)) (EV "ycoor"))));
 (SStore (EFld (EV "this") "u") (EBin Mul (EBin Mul (EBin Add (EV "i") (EI 1)) (EFld (EV "this") "nx")) (EFld (EV "this") "dim")) (EV "dux"));
 (SStore (EFld (EV "this") "u") (EBin Add (EBin Mul (EBin Mul (EBin Add (EV "i") (EI 1)) (EFld (EV "this") "nx")) (EFld (EV "this") "dim")) (EI 1)) (EV "duy"))]));
 (SFor "i" (EI 0) (EBin Lt (EV "i") (EBin Sub (EFld (EV "this") "ny") (EI 2))) (block [(SSet "xcoor" (EFld (EV "this") "lx"));
 (SSet "ycoor" (EBin Mul (EBin Add (EV "i") (EI 1)) (EFld (EV "this") "dy")));
 (SSet "dux" (EBin Add (EBin Mul (EIdx (EV "eps") (EI 0)) (EV "xcoor")) (EBin Mul (EBin Mul (EDec 5 1) (EIdx (EV "eps") (EI 2))) (EV "ycoor"))));
 (SSet "duy" (EBin Add (EBin Mul (EBin Mul (EDec 5 1) (EIdx (EV "eps") (EI 2))) (EV "xcoor")) (EBin Mul (EIdx (EV "eps") (EI 1)) (EV "ycoor"))));
 (SStore (EFld (EV "this") "u") (EBin Mul (EBin Sub (EBin Mul (EBin Add (EV "i") (EI 2)) (EFld (EV "this") "nx")) (EI 1)) (EFld (EV "this") "dim")) (EV "dux"));
 (SStore (EFld (EV "this") "u") (EBin Add (EBin Mul (EBin Sub (EBin Mul (EBin Add (EV "i") (EI 2)) (EFld (EV "this") "nx")) (EI 1)) (EFld (EV "this") "dim")) (EI 1)) (EV "duy"))]))]) (SIf (EBin Eq (EFld (EV "this") "dim") (EI 3)) (block [(SFor "i" (EI 0) (EBin Lt (EV "i") (EFld (EV "this") "nx")) (SFor "j" (EI 0) (EBin Lt (EV "j") (EFld (EV "this") "ny")) (block [(SSet "n" (EBin Add (EBin Add (EBin Mul (EBin Mul (EI 0) (EFld (EV "this") "nx")) (EFld (EV "this") "ny")) (EBin Mul (EV "j") (EFld (EV "this") "nx"))) (EV "i")));
 (SSet "xcoor" (EBin Mul (EV "i") (EFld (EV "this") "dx")));
 (SSet "ycoor" (EBin Mul (EV "j") (EFld (EV "this") "dy")));
 (SSet "zcoor" (EDbl (EI 0)));
 (SSet "dux" (EBin Add (EBin Add (EBin Mul (EIdx (EV "eps") (EI 0)) (EV "xcoor")) (EBin Mul (EBin Mul (EDec 5 1) (EIdx (EV "eps") (EI 3))) (EV "ycoor"))) (EBin Mul (EBin Mul (EDec 5 1) (EIdx (EV "eps") (EI 4))) (EV "zcoor"))));
 (SSet "duy" (EBin Add (EBin Add (EBin Mul (EBin Mul (EDec 5 1) (EIdx (EV "eps") (EI 3))) (EV "xcoor")) (EBin Mul (EIdx (EV "eps") (EI 1)) (EV "ycoor"))) (EBin Mul (EBin Mul (EDec 5 1) (EIdx (EV "eps") (EI 5))) (EV "zcoor"))));
 (SSet "duz" (EBin Add (EBin Add (EBin Mul (EBin Mul (EDec 5 1) (EIdx (EV "eps") (EI 4))) (EV "xcoor")) (EBin Mul (EBin Mul (EDec 5 1) (EIdx (EV "eps") (EI 5))) (EV "ycoor"))) (EBin Mul (EIdx (EV "eps") (EI 2)) (EV "zcoor"))));
 (SStore (EFld (EV "this") "u") (EBin Mul (EV "n") (EFld (EV "this") "dim")) (EV "dux"));
 (SStore (EFld (EV "this") "u") (EBin Add (EBin Mul (EV "n") (EFld (EV "this") "dim")) (EI 1)) (EV "duy"));
 (SStore (EFld (EV "this") "u") (EBin Add (EBin Mul (EV "n") (EFld (EV "this") "dim")) (EI 2)) (EV "duz"))])));
 (SFor "i" (EI 0) (EBin Lt (EV "i") (EFld (EV "this") "nx")) (SFor "j" (EI 0) (EBin Lt (EV "j") (EFld (EV "this") "ny")) (block [(SSet "n" (EBin Add (EBin Add (EBin Mul (EBin Mul (EBin Sub (EFld (EV "this") "nz") (EI 1)) (EFld (EV "this") "nx")) (EFld (EV "this") "ny")) (EBin Mul (EV "j") (EFld (EV "this") "nx"))) (EV "i")));
 (SSet "xcoor" (EBin Mul (EV "i") (EFld (EV "this") "dx")));
 (SSet "ycoor" (EBin Mul (EV "j") (EFld (EV "this") "dy")));
 (SSet "zcoor" (EFld (EV "this") "lz"));
 (SSet "dux" (EBin Add (EBin Add (EBin Mul (EIdx (EV "eps") (EI 0)) (EV "xcoor")) (EBin Mul (EBin Mul (EDec 5 1) (EIdx (EV "eps") (EI 3))) (EV "ycoor"))) (EBin Mul (EBin Mul (EDec 5 1) (EIdx (EV "eps") (EI 4))) (EV "zcoor"))));
 (SSet "duy" (EBin Add (EBin Add (EBin Mul (EBin Mul (EDec 5 1) (EIdx (EV "eps") (EI 3))) (EV "xcoor")) (EBin Mul (EIdx (EV "eps") (EI 1)) (EV "ycoor"))) (EBin Mul (EBin Mul (EDec 5 1) (EIdx (EV "eps") (EI 5))) (EV "zcoor"))));
 (SSet "duz" (EBin Add (EBin Add (EBin Mul (EBin Mul (EDec 5 1) (EIdx (EV "eps") (EI 4))) (EV "xcoor")) (EBin Mul (EBin Mul (EDec 5 1) (EIdx (EV "eps") (EI 5))) (EV "ycoor"))) (EBin Mul (EIdx (EV "eps") (EI 2)) (EV "zcoor"))));
 (SStore (EFld (EV "this") "u") (EBin Mul (EV "n") (EFld (EV "this") "dim")) (EV "dux"));
 (SStore (EFld (EV "this") "u") (EBin Add (EBin Mul (EV "n") (EFld (EV "this") "dim")) (EI 1)) (EV "duy"));
 (SStore (EFld (EV "this") "u") (EBin Add (EBin Mul (EV "n") (EFld (EV "this") "dim")) (EI 2)) (EV "duz"))])));
 (SFor "i" (EI 0) (EBin Lt (EV "i") (EFld (EV "this") "nx")) (SFor "k" (EI 1) (EBin Lt (EV "k") (EBin Sub (EFld (EV "this") "nz") (EI 1))) (block [(SSet "n" (EBin Add (EBin Add (EBin Mul (EBin Mul (EV "k") (EFld (EV "this") "nx")) (EFld (EV "this") "ny")) (EBin Mul (EI 0) (EFld (EV "this") "nx"))) (EV "i")));
 (SSet "xcoor" (EBin Mul (EV "i") (EFld (EV "this") "dx")));
 (SSet "ycoor" (EDbl (EI 0)));
 (SSet "zcoor" (EBin Mul (EV "k") (EFld (EV "this") "dz")));
 (SSet "dux" (EBin Add (EBin Add (EBin Mul (EIdx (EV "eps") (EI 0)) (EV "xcoor")) (EBin Mul (EBin Mul (EDec 5 1) (EIdx (EV "eps") (EI 3))) (EV "ycoor"))) (EBin Mul (EBin Mul (EDec 5 1) (EIdx (EV "eps") (EI 4))) (EV "zcoor"))));
 (SSet "duy" (EBin Add (EBin Add (EBin Mul (EBin Mul (EDec 5 1) (EIdx (EV "eps") (EI 3))) (EV "xcoor")) (EBin Mul (EIdx (EV "eps") (EI 1)) (EV "ycoor"))) (EBin Mul (EBin Mul (EDec 5 1) (EIdx (EV "eps") (EI 5))) (EV "zcoor"))));
 (SSet "duz" (EBin Add (EBin Add (EBin Mul (EBin Mul (EDec 5 1) (EIdx (EV "eps") (EI 4))) (EV "xcoor")) (EBin Mul (EBin Mul (EDec 5 1) (EIdx (EV "eps") (EI 5))) (EV "ycoor"))) (EBin Mul (EIdx (EV "eps") (EI 2)) (EV "zcoor"))));
 (SStore (EFld (EV "this") "u") (EBin Mul (EV "n") (EFld (EV "this") "dim")) (EV "dux"));
 (SStore (EFld (EV "this") "u") (EBin Add (EBin Mul (EV "n") (EFld (EV "this") "dim")) (EI 1)) (EV "duy"));
 (SStore (EFld (EV "this") "u") (EBin Add (EBin Mul (EV "n") (EFld (EV "this") "dim")) (EI 2)) (EV "duz"))])));
 (SFor "i" (EI 0) (EBin Lt (EV "i") (EFld (EV "this") "nx")) (SFor "k" (EI 1) (EBin Lt (EV "k") (EBin Sub (EFld (EV "this") "nz") (EI 1))) (block [(SSet "n" (EBin Add (EBin Add (EBin Mul (EBin Mul (EV "k") (EFld (EV "this") "nx")) (EFld (EV "this") "ny")) (EBin Mul (EBin Sub (EFld (EV "this") "ny") (EI 1)) (EFld (EV "this") "nx"))) (EV "i")));
 (SSet "xcoor" (EBin Mul (EV "i") (EFld (EV "this") "dx")));
 (SSet "ycoor" (EFld (EV "this") "ly"));
 (SSet "zcoor" (EBin Mul (EV "k") (EFld (EV "this") "dz")));
 (SSet "dux" (EBin Add (EBin Add (EBin Mul (EIdx (EV "eps") (EI 0)) (EV "xcoor")) (EBin Mul (EBin Mul (EDec 5 1) (EIdx (EV "eps") (EI 3))) (EV "ycoor"))) (EBin Mul (EBin Mul (EDec 5 1) (EIdx (EV "eps") (EI 4))) (EV "zcoor"))));
 (SSet "duy" (EBin Add (EBin Add (EBin Mul (EBin Mul (EDec 5 1) (EIdx (EV "eps") (EI 3))) (EV "xcoor")) (EBin Mul (EIdx (EV "eps") (EI 1)) (EV "ycoor"))) (EBin Mul (EBin Mul (EDec 5 1) (EIdx (EV "eps") (EI 5))) (EV "zcoor"))));
 (SSet "duz" (EBin Add (EBin Add (EBin Mul (EBin Mul (EDec 5 1) (EIdx (EV "eps") (EI 4))) (EV "xcoor")) (EBin Mul (EBin Mul (EDec 5 1) (EIdx (EV "eps") (EI 5))) (EV "ycoor"))) (EBin Mul (EIdx (EV "eps") (EI 2)) (EV "zcoor"))));
 (SStore (EFld (EV "this") "u") (EBin Mul (EV "n") (EFld (EV "this") "dim")) (EV "dux"));
 (SStore (EFld (EV "this") "u") (EBin Add (EBin Mul (EV "n") (EFld (EV "this") "dim")) (EI 1)) (EV "duy"));
 (SStore (EFld (EV "this") "u") (EBin Add (EBin Mul (EV "n") (EFld (EV "this") "dim")) (EI 2)) (EV "duz"))])));
 (SFor "j" (EI 1) (EBin Lt (EV "j") (EBin Sub (EFld (EV "this") "ny") (EI 1))) (SFor "k" (EI 1) (EBin Lt (EV "k") (EBin Sub (EFld (EV "this") "nz") (EI 1))) (block [(SSet "n" (EBin Add (EBin Add (EBin Mul (EBin Mul (EV "k") (EFld (EV "this") "nx")) (EFld (EV "this") "ny")) (EBin Mul (EV "j") (EFld (EV "this") "nx"))) (EI 0)));
 (SSet "xcoor" (EDbl (EI 0)));
 (SSet "ycoor" (EBin Mul (EV "j") (EFld (EV "this") "dy")));
 (SSet "zcoor" (EBin Mul (EV "k") (EFld (EV "this") "dz")));
 (SSet "dux" (EBin Add (EBin Add (EBin Mul (EIdx (EV "eps") (EI 0)) (EV "xcoor")) (EBin Mul (EBin Mul (EDec 5 1) (EIdx (EV "eps") (EI 3))) (EV "ycoor"))) (EBin Mul (EBin Mul (EDec 5 1) (EIdx (EV "eps") (EI 4))) (EV "zcoor"))));
 (SSet "duy" (EBin Add (EBin Add (EBin Mul (EBin Mul (EDec 5 1) (EIdx (EV "eps") (EI 3))) (EV "xcoor")) (EBin Mul (EIdx (EV "eps") (EI 1)) (EV "ycoor"))) (EBin Mul (EBin Mul (EDec 5 1) (EIdx (EV "eps") (EI 5))) (EV "zcoor"))));
 (SSet "duz" (EBin Add (EBin Add (EBin Mul (EBin Mul (EDec 5 1) (EIdx (EV "eps") (EI 4))) (EV "xcoor")) (EBin Mul (EBin Mul (EDec 5 1) (EIdx (EV "eps") (EI 5))) (EV "ycoor"))) (EBin Mul (EIdx (EV "eps") (EI 2)) (EV "zcoor"))));
 (SStore (EFld (EV "this") "u") (EBin Mul (EV "n") (EFld (EV "this") "dim")) (EV "dux"));
 (SStore (EFld (EV "this") "u") (EBin Add (EBin Mul (EV "n") (EFld (EV "this") "dim")) (EI 1)) (EV "duy"));
 (SStore (EFld (EV "this") "u") (EBin Add (EBin Mul (EV "n") (EFld (EV "this") "dim")) (EI 2)) (EV "duz"))])));
 (SFor "j" (EI 1) (EBin Lt (EV "j") (EBin Sub (EFld (EV "this") "ny") (EI 1))) (SFor "k" (EI 1) (EBin Lt (EV "k") (EBin Sub (EFld (EV "this") "nz") (EI 1))) (block [(SSet "n" (EBin Add (EBin Add (EBin Mul (EBin Mul (EV "k") (EFld (EV "this") "nx")) (EFld (EV "this") "ny")) (EBin Mul (EV "j") (EFld (EV "this") "nx"))) (EBin Sub (EFld (EV "this") "nx") (EI 1))));
 (SSet "xcoor" (EFld (EV "this") "lx"));
 (SSet "ycoor" (EBin Mul (EV "j") (EFld (EV "this") "dy")));
 (SSet "zcoor" (EBin Mul (EV "k") (EFld (EV "this") "dz")));
 (SSet "dux" (EBin Add (EBin Add (EBin Mul (EIdx (EV "eps") (EI 0)) (EV "xcoor")) (EBin Mul (EBin Mul (EDec 5 1) (EIdx (EV "eps") (EI 3))) (EV "ycoor"))) (EBin Mul (EBin Mul (EDec 5 1) (EIdx (EV "eps") (EI 4))) (EV "zcoor"))));
 (SSet "duy" (EBin Add (EBin Add (EBin Mul (EBin Mul (EDec 5 1) (EIdx (EV "eps") (EI 3))) (EV "xcoor")) (EBin Mul (EIdx (EV "eps") (EI 1)) (EV "ycoor"))) (EBin Mul (EBin Mul (EDec 5 1) (EIdx (EV "eps") (EI 5))) (EV "zcoor"))));
 (SSet "duz" (EBin Add (EBin Add (EBin Mul (EBin Mul (EDec 5 1) (EIdx (EV "eps") (EI 4))) (EV "xcoor")) (EBin Mul (EBin Mul (EDec 5 1) (EIdx (EV "eps") (EI 5))) (EV "ycoor"))) (EBin Mul (EIdx (EV "eps") (EI 2)) (EV "zcoor"))));
 (SStore (EFld (EV "this") "u") (EBin Mul (EV "n") (EFld (EV "this") "dim")) (EV "dux"));
 (SStore (EFld (EV "this") "u") (EBin Add (EBin Mul (EV "n") (EFld (EV "this") "dim")) (EI 1)) (EV "duy"));
 (SStore (EFld (EV "this") "u") (EBin Add (EBin Mul (EV "n") (EFld (EV "this") "dim")) (EI 2)) (EV "duz"))])))]) SSkip)).

(** src/assembly.cpp:170-331 *)
Definition ast_assembly_rhs : fdef := mkFun ["this"; "non_linear"]
 (block [(SMalloc "index" TInt (EI 24));
 (SMalloc "non_linear_one_elem" TInt (EI 1));
 (SStore (EV "non_linear_one_elem") (EI 0) (EI 0));
 (SStore (EV "non_linear") (EI 0) (EI 0));
 (SFor "i" (EI 0) (EBin Lt (EV "i") (EBin Mul (EFld (EV "this") "nn") (EFld (EV "this") "dim"))) (SStore (EFld (EV "this") "b") (EV "i") (EDbl (EI 0))));
 (SIf (EBin Eq (EFld (EV "this") "dim") (EI 2)) (block [(SMalloc "be" TDbl (EI 8));
 (SFor "ex" (EI 0) (EBin Lt (EV "ex") (EBin Sub (EFld (EV "this") "nx") (EI 1))) (SFor "ey" (EI 0) (EBin Lt (EV "ey") (EBin Sub (EFld (EV "this") "ny") (EI 1))) (block [(SSet "n0" (EBin Add (EBin Mul (EV "ey") (EFld (EV "this") "nx")) (EV "ex")));
 (SSet "n1" (EBin Add (EBin Add (EBin Mul (EV "ey") (EFld (EV "this") "nx")) (EV "ex")) (EI 1)));
 (SSet "n2" (EBin Add (EBin Add (EBin Mul (EBin Add (EV "ey") (EI 1)) (EFld (EV "this") "nx")) (EV "ex")) (EI 1)));
 (SSet "n3" (EBin Add (EBin Mul (EBin Add (EV "ey") (EI 1)) (EFld (EV "this") "nx")) (EV "ex")));
 (SStore (EV "index") (EI 0) (EBin Mul (EV "n0") (EFld (EV "this") "dim")));
 (SStore (EV "index") (EI 1) (EBin Add (EBin Mul (EV "n0") (EFld (EV "this") "dim")) (EI 1)));
 (SStore (EV "index") (EI 2) (EBin Mul (EV "n1") (EFld (EV "this") "dim")));
 (SStore (EV "index") (EI 3) (EBin Add (EBin Mul (EV "n1") (EFld (EV "this") "dim")) (EI 1)));
 (SStore (EV "index") (EI 4) (EBin Mul (EV "n2") (EFld (EV "this") "dim")));
 (SStore (EV "index") (EI 5) (EBin Add (EBin Mul (EV "n2") (EFld (EV "this") "dim")) (EI 1)));
 (SStore (EV "index") (EI 6) (EBin Mul (EV "n3") (EFld (EV "this") "dim")));
 (SStore (EV "index") (EI 7) (EBin Add (EBin Mul (EV "n3") (EFld (EV "this") "dim")) (EI 1)));
 (SCall "get_elem_rhs2D" [(EV "this"); (EV "ex"); (EV "ey"); (EV "non_linear_one_elem"); (EV "be")]);
 (SIf (EBin Eq (EIdx (EV "non_linear_one_elem") (EI 0)) (EI 1)) (SStore (EV "non_linear") (EI 0) (EI 1)) SSkip);
 (SFor "i" (EI 0) (EBin Lt (EV "i") (EBin Mul (EFld (EV "this") "npe") (EFld (EV "this") "dim"))) (SStore (EFld (EV "this") "b") (EIdx (EV "index") (EV "i")) (EBin Add (EIdx (EFld (EV "this") "b") (EIdx (EV "index") (EV "i"))) (EIdx (EV "be") (EV "i")))))])));
 (SFor "i" (EI 0) (EBin Lt (EV "i") (EFld (EV "this") "nx")) (SFor "d" (EI 0) (EBin Lt (EV "d") (EFld (EV "this") "dim")) (SStore (EFld (EV "this") "b") (EBin Add (EBin Mul (EV "i") (EFld (EV "this") "dim")) (EV "d")) (EDbl (EI 0)))));
 (SFor "i" (EI 0) (EBin Lt (EV "i") (EFld (EV "this") "nx")) (SFor "d" (EI 0) (EBin Lt (EV "d") (EFld (EV "this") "dim")) (SStore (EFld (EV "this") "b") (EBin Add (EBin Mul (EBin Add (EV "i") (EBin Mul (EBin Sub (EFld (EV "this") "ny") (EI 1)) (EFld (EV "this") "nx"))) (EFld (EV "this") "dim")) (EV "d")) (EDbl (EI 0)))));
 (SFor "i" (EI 0) (EBin Lt (EV "i") (EBin Sub (EFld (EV "this") "ny") (EI 2))) (SFor "d" (EI 0) (EBin Lt (EV "d") (EFld (EV "this") "dim")) (SStore (EFld (EV "this") "b") (EBin Add (EBin Mul (EBin Mul (EBin Add (EV "i") (EI 1)) (EFld (EV "this") "nx")) (EFld (EV "this") "dim")) (EV "d")) (EDbl (EI 0)))));
 (SFor "i" (EI 0) (EBin Lt (EV "i") (EBin Sub (EFld (EV "this") "ny") (EI 2))) (SFor "d" (EI 0) (EBin Lt (EV "d") (EFld (EV "this") "dim")) (SStore (EFld (EV "this") "b") (EBin Add (EBin Mul (EBin Sub (EBin Mul (EBin Add (EV "i") (EI 2)) (EFld (EV "this") "nx")) (EI 1)) (EFld (EV "this") "dim")) (EV "d")) (EDbl (EI 0)))))]) (SIf (EBin Eq (EFld (EV "this") "dim") (EI 3)) (block [(SMalloc "be" TDbl (EI 24));
 (SFor "ex" (EI 0) (EBin Lt (EV "ex") (EBin Sub (EFld (EV "this") "nx") (EI 1))) (SFor "ey" (EI 0) (EBin Lt (EV "ey") (EBin Sub (EFld (EV "this") "ny") (EI 1))) (SFor "ez" (EI 0) (EBin Lt (EV "ez") (EBin Sub (EFld (EV "this") "nz") (EI 1))) (block [(SSet "n0" (EBin Add (EBin Add (EBin Mul (EV "ez") (EBin Mul (EFld (EV "this") "nx") (EFld (EV "this") "ny"))) (EBin Mul (EV "ey") (EFld (EV "this") "nx"))) (EV "ex")));
 (SSet "n1" (EBin Add (EBin Add (EBin Add (EBin Mul (EV "ez") (EBin Mul (EFld (EV "this") "nx") (EFld (EV "this") "ny"))) (EBin Mul (EV "ey") (EFld (EV "this") "nx"))) (EV "ex")) (EI 1)));
 (SSet "n2" (EBin Add (EBin Add (EBin Add (EBin Mul (EV "ez") (EBin Mul (EFld (EV "this") "nx") (EFld (EV "this") "ny"))) (EBin Mul (EBin Add (EV "ey") (EI 1)) (EFld (EV "this") "nx"))) (EV "ex")) (EI 1)));
 (SSet "n3" (EBin Add (EBin Add (EBin Mul (EV "ez") (EBin Mul (EFld (EV "this") "nx") (EFld (EV "this") "ny"))) (EBin Mul (EBin Add (EV "ey") (EI 1)) (EFld (EV "this") "nx"))) (EV "ex")));
 (SSet "n4" (EBin Add (EV "n0") (EBin Mul (EFld (EV "this") "nx") (EFld (EV "this") "ny"))));
 (SSet "n5" (EBin Add (EV "n1") (EBin Mul (EFld (EV "this") "nx") (EFld (EV "this") "ny"))));
 (SSet "n6" (EBin Add (EV "n2") (EBin Mul (EFld (EV "this") "nx") (EFld (EV "this") "ny"))));
 (SSet "n7" (EBin Add (EV "n3") (EBin Mul (EFld (EV "this") "nx") (EFld (EV "this") "ny"))));
 (SFor "d" (EI 0) (EBin Lt (EV "d") (EFld (EV "this") "dim")) (block [(SStore (EV "index") (EBin Add (EBin Mul (EI 0) (EFld (EV "this") "dim")) (EV "d")) (EBin Add (EBin Mul (EV "n0") (EFld (EV "this") "dim")) (EV "d")));
 (SStore (EV "index") (EBin Add (EBin Mul (EI 1) (EFld (EV "this") "dim")) (EV "d")) (EBin Add (EBin Mul (EV "n1") (EFld (EV "this") "dim")) (EV "d")));
 (SStore (EV "index") (EBin Add (EBin Mul (EI 2) (EFld (EV "this") "dim")) (EV "d")) (EBin Add (EBin Mul (EV "n2") (EFld (EV "this") "dim")) (EV "d")));
 (SStore (EV "index") (EBin Add (EBin Mul (EI 3) (EFld (EV "this") "dim")) (EV "d")) (EBin Add (EBin Mul (EV "n3") (EFld (EV "this") "dim")) (EV "d")));
 (SStore (EV "index") (EBin Add (EBin Mul (EI 4) (EFld (EV "this") "dim")) (EV "d")) (EBin Add (EBin Mul (EV "n4") (EFld (EV "this") "dim")) (EV "d")));
 (SStore (EV "index") (EBin Add (EBin Mul (EI 5) (EFld (EV "this") "dim")) (EV "d")) (EBin Add (EBin Mul (EV "n5") (EFld (EV "this") "dim")) (EV "d")));
 (SStore (EV "index") (EBin Add (EBin Mul (EI 6) (EFld (EV "this") "dim")) (EV "d")) (EBin Add (EBin Mul (EV "n6") (EFld (EV "this") "dim")) (EV "d")));
 (SStore (EV "index") (EBin Add (EBin Mul (EI 7) (EFld (EV "this") "dim")) (EV "d")) (EBin Add (EBin Mul (EV "n7") (EFld (EV "this") "dim")) (EV "d")))]));
 (SCall "get_elem_rhs3D" [(EV "this"); (EV "ex"); (EV "ey"); (EV "ez"); (EV "non_linear_one_elem"); (EV "be")]);
 (SIf (EBin Eq (EIdx (EV "non_linear_one_elem") (EI 0)) (EI 1)) (SStore (EV "non_linear") (EI 0) (EI 1)) SSkip);
 (SFor "i" (EI 0) (EBin Lt (EV "i") (EBin Mul (EFld (EV "this") "npe") (EFld (EV "this") "dim"))) (SStore (EFld (EV "this") "b") (EIdx (EV "index") (EV "i")) (EBin Add (EIdx (EFld (EV "this") "b") (EIdx (EV "index") (EV "i"))) (EIdx (EV "be") (EV "i")))))]))));
 (SFor "i" (EI 0) (EBin Lt (EV "i") (EFld (EV "this") "nx")) (SFor "j" (EI 0) (EBin Lt (EV "j") (EFld (EV "this") "ny")) (block [(SSet "n" (EBin Add (EBin Add (EBin Mul (EBin Mul (EI 0) (EFld (EV "this") "nx")) (EFld (EV "this") "ny")) (EBin Mul (EV "j") (EFld (EV "this") "nx"))) (EV "i")));
 (SFor "d" (EI 0) (EBin Lt (EV "d") (EFld (EV "this") "dim")) (SStore (EFld (EV "this") "b") (EBin Add (EBin Mul (EV "n") (EFld (EV "this") "dim")) (EV "d")) (EDbl (EI 0))))])));
 (SFor "i" (EI 0) (EBin Lt (EV "i") (EFld (EV "this") "nx")) (SFor "j" (EI 0) (EBin Lt (EV "j") (EFld (EV "this") "ny")) (block [(SSet "n" (EBin Add (EBin Add (EBin Mul (EBin Mul (EBin Sub (EFld (EV "this") "nz") (EI 1)) (EFld (EV "this") "nx")) (EFld (EV "this") "ny")) (EBin Mul (EV "j") (EFld (EV "this") "nx"))) (EV "i")));
 (SFor "d" (EI 0) (EBin Lt (EV "d") (EFld (EV "this") "dim")) (SStore (EFld (EV "this") "b") (EBin Add (EBin Mul (EV "n") (EFld (EV "this") "dim")) (EV "d")) (EDbl (EI 0))))])));
 (SFor "i" (EI 0) (EBin Lt (EV "i") (EFld (EV "this") "nx")) (SFor "k" (EI 1) (EBin Lt (EV "k") (EBin Sub (EFld (EV "this") "nz") (EI 1))) (block [(SSet "n" (EBin Add (EBin Add (EBin Mul (EBin Mul (EV "k") (EFld (EV "this") "nx")) (EFld (EV "this") "ny")) (EBin Mul (EI 0) (EFld (EV "this") "nx"))) (EV "i")));
 (SFor "d" (EI 0) (EBin Lt (EV "d") (EFld (EV "this") "dim")) (SStore (EFld (EV "this") "b") (EBin Add (EBin Mul (EV "n") (EFld (EV "this") "dim")) (EV "d")) (EDbl (EI 0))))])));
 (SFor "i" (EI 0) (EBin Lt (EV "i") (EFld (EV "this") "nx")) (SFor "k" (EI 1) (EBin Lt (EV "k") (EBin Sub (EFld (EV "this") "nz") (EI 1))) (block [(SSet "n" (EBin Add (EBin Add (EBin Mul (EBin Mul (EV "k") (EFld (EV "this") "nx")) (EFld (EV "this") "ny")) (EBin Mul (EBin Sub (EFld (EV "this") "ny") (EI 1)) (EFld (EV "this") "nx"))) (EV "i")));
 (SFor "d" (EI 0) (EBin Lt (EV "d") (EFld (EV "this") "dim")) (SStore (EFld (EV "this") "b") (EBin Add (EBin Mul (EV "n") (EFld (EV "this") "dim")) (EV "d")) (EDbl (EI 0))))])));
 (SFor "j" (EI 1) (EBin Lt (EV "j") (EBin Sub (EFld (EV "this") "ny") (EI 1))) (SFor "k" (EI 1) (EBin Lt (EV "k") (EBin Sub (EFld (EV "this") "nz") (EI 1))) (block [(SSet "n" (EBin Add (EBin Add (EBin Mul (EBin Mul (EV "k") (EFld (EV "this") "nx")) (EFld (EV "this") "ny")) (EBin Mul (EV "j") (EFld (EV "this") "nx"))) (EI 0)));
 (SFor "d" (EI 0) (EBin Lt (EV "d") (EFld (EV "this") "dim")) (SStore (EFld (EV "this") "b") (EBin Add (EBin Mul (EV "n") (EFld (EV "this") "dim")) (EV "d")) (EDbl (EI 0))))])));
 (SFor "j" (EI 1) (EBin Lt (EV "j") (EBin Sub (EFld (EV "this") "ny") (EI 1))) (SFor "k" (EI 1) (EBin Lt (EV "k") (EBin Sub (EFld (EV "this") "nz") (EI 1))) (block [(SSet "n" (EBin Add (EBin Add (EBin Mul (EBin Mul (EV "k") (EFld (EV "this") "nx")) (EFld (EV "this") "ny")) (EBin Mul (EV "j") (EFld (EV "this") "nx"))) (EBin Sub (EFld (EV "this") "nx") (EI 1))));
 (SFor "d" (EI 0) (EBin Lt (EV "d") (EFld (EV "this") "dim")) (SStore (EFld (EV "this") "b") (EBin Add (EBin Mul (EV "n") (EFld (EV "this") "dim")) (EV "d")) (EDbl (EI 0))))])))]) SSkip));
 (SFor "i" (EI 0) (EBin Lt (EV "i") (EBin Mul (EFld (EV "this") "nn") (EFld (EV "this") "dim"))) (SStore (EFld (EV "this") "b") (EV "i") (ENeg (EIdx (EFld (EV "this") "b") (EV "i")))));
 (SSet "norm" (EDbl (EI 0)));
 (SFor "i" (EI 0) (EBin Lt (EV "i") (EBin Mul (EFld (EV "this") "nn") (EFld (EV "this") "dim"))) (SSet "norm" (EBin Add (EV "norm") (EBin Mul (EIdx (EFld (EV "this") "b") (EV "i")) (EIdx (EFld (EV "this") "b") (EV "i"))))));
 (SSet "norm" (ESqrt (EV "norm")));
 (SRet (EV "norm"))]).

(** src/assembly.cpp:333-364 *)
Definition ast_assembly_mat : fdef := mkFun ["this"]
 (block [(SMalloc "index" TInt (EI 8));
 (SCall "ell_set_zero_mat" [(EFld (EV "this") "A")]);
 (SIf (EBin Eq (EFld (EV "this") "dim") (EI 2)) (block [(SMalloc "Ae" TDbl (EI 64));
 (SFor "ex" (EI 0) (EBin Lt (EV "ex") (EBin Sub (EFld (EV "this") "nx") (EI 1))) (SFor "ey" (EI 0) (EBin Lt (EV "ey") (EBin Sub (EFld (EV "this") "ny") (EI 1))) (block [(SCall "get_elem_mat2D" [(EV "this"); (EV "ex"); (EV "ey"); (EV "Ae")]);
 (SCall "ell_add_struct2D" [(EFld (EV "this") "A"); (EV "ex"); (EV "ey"); (EV "Ae"); (EFld (EV "this") "dim"); (EFld (EV "this") "nx"); (EFld (EV "this") "ny")])])));
 (SCall "ell_set_bc_2D" [(EFld (EV "this") "A"); (EFld (EV "this") "dim"); (EFld (EV "this") "nx"); (EFld (EV "this") "ny")])]) (SIf (EBin Eq (EFld (EV "this") "dim") (EI 3)) (block [(SMalloc "Ae" TDbl (EI 576));
 (SFor "ex" (EI 0) (EBin Lt (EV "ex") (EBin Sub (EFld (EV "this") "nx") (EI 1))) (SFor "ey" (EI 0) (EBin Lt (EV "ey") (EBin Sub (EFld (EV "this") "ny") (EI 1))) (SFor "ez" (EI 0) (EBin Lt (EV "ez") (EBin Sub (EFld (EV "this") "nz") (EI 1))) (block [(SCall "get_elem_mat3D" [(EV "this"); (EV "ex"); (EV "ey"); (EV "ez"); (EV "Ae")]);
 (SCall "ell_add_struct3D" [(EFld (EV "this") "A"); (EV "ex"); (EV "ey"); (EV "ez"); (EV "Ae"); (EFld (EV "this") "dim"); (EFld (EV "this") "nx"); (EFld (EV "this") "ny"); (EFld (EV "this") "nz")])]))));
 (SCall "ell_set_bc_3D" [(EFld (EV "this") "A"); (EFld (EV "this") "dim"); (EFld (EV "this") "nx"); (EFld (EV "this") "ny"); (EFld (EV "this") "nz")])]) SSkip))]).

(** src/assembly.cpp:366-443 *)
Definition ast_get_elem_mat2D : fdef := mkFun ["this"; "ex"; "ey"; "Ae"]
 (block [(SMalloc "ctan" TDbl (EI 9));
 (SSet "e" (EBin Add (EBin Add (EBin Mul (EBin Mul (EI 0) (EBin Sub (EFld (EV "this") "nx") (EI 1))) (EBin Sub (EFld (EV "this") "ny") (EI 1))) (EBin Mul (EV "ey") (EBin Sub (EFld (EV "this") "nx") (EI 1)))) (EV "ex")));
 (SStruct "material" ["E"; "nu"; "k"; "mu"; "lambda"; "Ka"; "Sy"; "plasticity"; "damage"]);
 (SCall "get_material" [(EV "this"); (EV "e"); (EV "material")]);
 (SSet "E" (EFld (EV "material") "E"));
 (SSet "nu" (EFld (EV "material") "nu"));
 (SSet "plasticity" (EFld (EV "material") "plasticity"));
 (SStore (EV "ctan") (EIx2 3 (EI 0) (EI 0)) (EBin Sub (EI 1) (EV "nu")));
 (SStore (EV "ctan") (EIx2 3 (EI 0) (EI 1)) (EV "nu"));
 (SStore (EV "ctan") (EIx2 3 (EI 0) (EI 2)) (EI 0));
 (SStore (EV "ctan") (EIx2 3 (EI 1) (EI 0)) (EV "nu"));
 (SStore (EV "ctan") (EIx2 3 (EI 1) (EI 1)) (EBin Sub (EI 1) (EV "nu")));
 (SStore (EV "ctan") (EIx2 3 (EI 1) (EI 2)) (EI 0));
 (SStore (EV "ctan") (EIx2 3 (EI 2) (EI 0)) (EI 0));
 (SStore (EV "ctan") (EIx2 3 (EI 2) (EI 1)) (EI 0));
 (SStore (EV "ctan") (EIx2 3 (EI 2) (EI 2)) (EBin Div (EBin Sub (EI 1) (EBin Mul (EI 2) (EV "nu"))) (EI 2)));
 (SFor "i" (EI 0) (EBin Lt (EV "i") (EFld (EV "this") "nvoi")) (SFor "j" (EI 0) (EBin Lt (EV "j") (EFld (EV "this") "nvoi")) (SStore (EV "ctan") (EIx2 3 (EV "i") (EV "j")) (EBin Mul (EIdx2 3 (EV "ctan") (EV "i") (EV "j")) (EBin Div (EV "E") (EBin Mul (EBin Add (EI 1) (EV "nu")) (EBin Sub (EI 1) (EBin Mul (EI 2) (EV "nu")))))))));
 (SMalloc "xg" TDbl (EI 8));
 (SStore (EV "xg") (EI 0) (ENeg (EDec 577350269189626 15)));
 (SStore (EV "xg") (EI 1) (ENeg (EDec 577350269189626 15)));
 (SStore (EV "xg") (EI 2) (EDec 577350269189626 15));
 (SStore (EV "xg") (EI 3) (ENeg (EDec 577350269189626 15)));
 (SStore (EV "xg") (EI 4) (EDec 577350269189626 15));
 (SStore (EV "xg") (EI 5) (EDec 577350269189626 15));
 (SStore (EV "xg") (EI 6) (ENeg (EDec 577350269189626 15)));
 (SStore (EV "xg") (EI 7) (EDec 577350269189626 15));
 (SMalloc "dsh" TDbl (EI 8));
 (SMalloc "b_mat" TDbl (EI 24));
 (SMalloc "cxb" TDbl (EI 24));
 (SFor "i" (EI 0) (EBin Lt (EV "i") (EBin Mul (EBin Mul (EBin Mul (EFld (EV "this") "npe") (EFld (EV "this") "dim")) (EFld (EV "this") "npe")) (EFld (EV "this") "dim"))) (SStore (EV "Ae") (EV "i") (EDbl (EI 0))));
 (SFor "gp" (EI 0) (EBin Lt (EV "gp") (EI 4)) (block [(SStore (EV "dsh") (EIx2 2 (EI 0) (EI 0)) (EBin Div (EBin Mul (EBin Div (ENeg (EBin Sub (EI 1) (EIdx2 2 (EV "xg") (EV "gp") (EI 1)))) (EI 4)) (EI 2)) (EFld (EV "this") "dx")));
 (SStore (EV "dsh") (EIx2 2 (EI 0) (EI 1)) (EBin Div (EBin Mul (EBin Div (ENeg (EBin Sub (EI 1) (EIdx2 2 (EV "xg") (EV "gp") (EI 0)))) (EI 4)) (EI 2)) (EFld (EV "this") "dy")));
 (SStore (EV "dsh") (EIx2 2 (EI 1) (EI 0)) (EBin Div (EBin Mul (EBin Div (EBin Sub (EI 1) (EIdx2 2 (EV "xg") (EV "gp") (EI 1))) (EI 4)) (EI 2)) (EFld (EV "this") "dx")));
 (SStore (EV "dsh") (EIx2 2 (EI 1) (EI 1)) (EBin Div (EBin Mul (EBin Div (ENeg (EBin Add (EI 1) (EIdx2 2 (EV "xg") (EV "gp") (EI 0)))) (EI 4)) (EI 2)) (EFld (EV "this") "dy")));
 (SStore (EV "dsh") (EIx2 2 (EI 2) (EI 0)) (EBin Div (EBin Mul (EBin Div (EBin Add (EI 1) (EIdx2 2 (EV "xg") (EV "gp") (EI 1))) (EI 4)) (EI 2)) (EFld (EV "this") "dx")));
 (SStore (EV "dsh") (EIx2 2 (EI 2) (EI 1)) (EBin Div (EBin Mul (EBin Div (EBin Add (EI 1) (EIdx2 2 (EV "xg") (EV "gp") (EI 0))) (EI 4)) (EI 2)) (EFld (EV "this") "dy")));
 (SStore (EV "dsh") (EIx2 2 (EI 3) (EI 0)) (EBin Div (EBin Mul (EBin Div (ENeg (EBin Add (EI 1) (EIdx2 2 (EV "xg") (EV "gp") (EI 1)))) (EI 4)) (EI 2)) (EFld (EV "this") "dx")));
 (SStore (EV "dsh") (EIx2 2 (EI 3) (EI 1)) (EBin Div (EBin Mul (EBin Div (EBin Sub (EI 1) (EIdx2 2 (EV "xg") (EV "gp") (EI 0))) (EI 4)) (EI 2)) (EFld (EV "this") "dy")));
 (SFor "i" (EI 0) (EBin Lt (EV "i") (EI 4)) (block [(SStore (EV "b_mat") (EIx2 8 (EI 0) (EBin Mul (EV "i") (EFld (EV "this") "dim"))) (EIdx2 2 (EV "dsh") (EV "i") (EI 0)));
 (SStore (EV "b_mat") (EIx2 8 (EI 0) (EBin Add (EBin Mul (EV "i") (EFld (EV "this") "dim")) (EI 1))) (EI 0));
 (SStore (EV "b_mat") (EIx2 8 (EI 1) (EBin Mul (EV "i") (EFld (EV "this") "dim"))) (EI 0));
 (SStore (EV "b_mat") (EIx2 8 (EI 1) (EBin Add (EBin Mul (EV "i") (EFld (EV "this") "dim")) (EI 1))) (EIdx2 2 (EV "dsh") (EV "i") (EI 1)));
 (SStore (EV "b_mat") (EIx2 8 (EI 2) (EBin Mul (EV "i") (EFld (EV "this") "dim"))) (EIdx2 2 (EV "dsh") (EV "i") (EI 1)));
 (SStore (EV "b_mat") (EIx2 8 (EI 2) (EBin Add (EBin Mul (EV "i") (EFld (EV "this") "dim")) (EI 1))) (EIdx2 2 (EV "dsh") (EV "i") (EI 0)))]));
 (SFor "i" (EI 0) (EBin Lt (EV "i") (EFld (EV "this") "nvoi")) (SFor "j" (EI 0) (EBin Lt (EV "j") (EBin Mul (EFld (EV "this") "npe") (EFld (EV "this") "dim"))) (block [(SStore (EV "cxb") (EIx2 8 (EV "i") (EV "j")) (EDbl (EI 0)));
 (SFor "k" (EI 0) (EBin Lt (EV "k") (EFld (EV "this") "nvoi")) (SStore (EV "cxb") (EIx2 8 (EV "i") (EV "j")) (EBin Add (EIdx2 8 (EV "cxb") (EV "i") (EV "j")) (EBin Mul (EIdx2 3 (EV "ctan") (EV "i") (EV "k")) (EIdx2 8 (EV "b_mat") (EV "k") (EV "j"))))))])));
 (SSet "wg" (EBin Mul (EBin Mul (EDec 25 2) (EFld (EV "this") "dx")) (EFld (EV "this") "dy")));
 (SFor "i" (EI 0) (EBin Lt (EV "i") (EBin Mul (EFld (EV "this") "npe") (EFld (EV "this") "dim"))) (SFor "j" (EI 0) (EBin Lt (EV "j") (EBin Mul (EFld (EV "this") "npe") (EFld (EV "this") "dim"))) (SFor "m" (EI 0) (EBin Lt (EV "m") (EFld (EV "this") "nvoi")) (SStore (EV "Ae") (EBin Add (EBin Mul (EBin Mul (EV "i") (EFld (EV "this") "npe")) (EFld (EV "this") "dim")) (EV "j")) (EBin Add (EIdx (EV "Ae") (EBin Add (EBin Mul (EBin Mul (EV "i") (EFld (EV "this") "npe")) (EFld (EV "this") "dim")) (EV "j"))) (EBin Mul (EBin Mul (EIdx2 8 (EV "b_mat") (EV "m") (EV "i")) (EIdx2 8 (EV "cxb") (EV "m") (EV "j"))) (EV "wg")))))))]))]).

(** src/assembly.cpp:445-509 *)
Definition ast_get_elem_mat3D : fdef := mkFun ["this"; "ex"; "ey"; "ez"; "Ae"]
 (block [(SSet "e" (EBin Add (EBin Add (EBin Mul (EBin Mul (EV "ez") (EBin Sub (EFld (EV "this") "nx") (EI 1))) (EBin Sub (EFld (EV "this") "ny") (EI 1))) (EBin Mul (EV "ey") (EBin Sub (EFld (EV "this") "nx") (EI 1)))) (EV "ex")));
 (SStruct "material" ["E"; "nu"; "k"; "mu"; "lambda"; "Ka"; "Sy"; "plasticity"; "damage"]);
 (SCall "get_material" [(EV "this"); (EV "e"); (EV "material")]);
 (SMalloc "ctan" TDbl (EI 36));
 (SFor "i" (EI 0) (EBin Lt (EV "i") (EBin Mul (EBin Mul (EBin Mul (EFld (EV "this") "npe") (EFld (EV "this") "dim")) (EFld (EV "this") "npe")) (EFld (EV "this") "dim"))) (SStore (EV "Ae") (EV "i") (EDbl (EI 0))));
 (SFor "gp" (EI 0) (EBin Lt (EV "gp") (EI 8)) (block [(SIf (EBin Eq (EFld (EV "material") "plasticity") (EI 1)) (block [(SSet "ctan_secant" (EI 0));
 (SSet "ctan_pert" (EI 1));
 (SSet "ctan_exact" (EI 0));
 (SIf (EBin Eq (EV "ctan_secant") (EI 1)) (SCall "get_ctan_plast_sec" [(EV "this"); (EV "ex"); (EV "ey"); (EV "ez"); (EV "gp"); (EV "ctan")]) (SIf (EBin Eq (EV "ctan_exact") (EI 1)) (SCall "get_ctan_plast_exact" [(EV "this"); (EV "ex"); (EV "ey"); (EV "ez"); (EV "gp"); (EV "ctan")]) (SIf (EBin Eq (EV "ctan_pert") (EI 1)) (SCall "get_ctan_plast_pert" [(EV "this"); (EV "ex"); (EV "ey"); (EV "ez"); (EV "gp"); (EV "ctan")]) SSkip)))]) (block [(SFor "i" (EI 0) (EBin Lt (EV "i") (EI 6)) (SFor "j" (EI 0) (EBin Lt (EV "j") (EI 6)) (SStore (EV "ctan") (EIx2 6 (EV "i") (EV "j")) (EDbl (EI 0)))));
 (SFor "i" (EI 0) (EBin Lt (EV "i") (EI 3)) (SFor "j" (EI 0) (EBin Lt (EV "j") (EI 3)) (SStore (EV "ctan") (EIx2 6 (EV "i") (EV "j")) (EBin Add (EIdx2 6 (EV "ctan") (EV "i") (EV "j")) (EFld (EV "material") "lambda")))));
 (SFor "i" (EI 0) (EBin Lt (EV "i") (EI 3)) (SStore (EV "ctan") (EIx2 6 (EV "i") (EV "i")) (EBin Add (EIdx2 6 (EV "ctan") (EV "i") (EV "i")) (EBin Mul (EI 2) (EFld (EV "material") "mu")))));
 (SFor "i" (EI 3) (EBin Lt (EV "i") (EI 6)) (SStore (EV "ctan") (EIx2 6 (EV "i") (EV "i")) (EBin Add (EIdx2 6 (EV "ctan") (EV "i") (EV "i")) (EFld (EV "material") "mu"))))]));
 (SMalloc "bmat" TDbl (EI 144));
 (SMalloc "cxb" TDbl (EI 144));
 (SCall "calc_bmat_3D" [(EV "this"); (EV "gp"); (EV "bmat")]);
 (SFor "i" (EI 0) (EBin Lt (EV "i") (EFld (EV "this") "nvoi")) (SFor "j" (EI 0) (EBin Lt (EV "j") (EBin Mul (EFld (EV "this") "npe") (EFld (EV "this") "dim"))) (block [(SStore (EV "cxb") (EIx2 24 (EV "i") (EV "j")) (EDbl (EI 0)));
 (SFor "k" (EI 0) (EBin Lt (EV "k") (EFld (EV "this") "nvoi")) (SStore (EV "cxb") (EIx2 24 (EV "i") (EV "j")) (EBin Add (EIdx2 24 (EV "cxb") (EV "i") (EV "j")) (EBin Mul (EIdx2 6 (EV "ctan") (EV "i") (EV "k")) (EIdx2 24 (EV "bmat") (EV "k") (EV "j"))))))])));
 (SSet "wg" (EBin Mul (EBin Mul (EBin Mul (EBin Div (EI 1) (EDbl (EI 8))) (EFld (EV "this") "dx")) (EFld (EV "this") "dy")) (EFld (EV "this") "dz")));
 (SFor "i" (EI 0) (EBin Lt (EV "i") (EBin Mul (EFld (EV "this") "npe") (EFld (EV "this") "dim"))) (SFor "j" (EI 0) (EBin Lt (EV "j") (EBin Mul (EFld (EV "this") "npe") (EFld (EV "this") "dim"))) (SFor "m" (EI 0) (EBin Lt (EV "m") (EFld (EV "this") "nvoi")) (SStore (EV "Ae") (EBin Add (EBin Mul (EBin Mul (EV "i") (EFld (EV "this") "npe")) (EFld (EV "this") "dim")) (EV "j")) (EBin Add (EIdx (EV "Ae") (EBin Add (EBin Mul (EBin Mul (EV "i") (EFld (EV "this") "npe")) (EFld (EV "this") "dim")) (EV "j"))) (EBin Mul (EBin Mul (EIdx2 24 (EV "bmat") (EV "m") (EV "i")) (EIdx2 24 (EV "cxb") (EV "m") (EV "j"))) (EV "wg")))))))]))]).

(** src/assembly.cpp:511-532 *)
Definition ast_get_ctan_plast_sec : fdef := mkFun ["this"; "ex"; "ey"; "ez"; "gp"; "ctan"]
 (block [(SMalloc "non_linear" TInt (EI 1));
 (SMalloc "stress_pert" TDbl (EI 6));
 (SMalloc "strain_pert" TDbl (EI 6));
 (SMalloc "strain_0" TDbl (EI 6));
 (SSet "d_strain" (EDec 1 8));
 (SCall "get_strain3D" [(EV "this"); (EV "ex"); (EV "ey"); (EV "ez"); (EV "gp"); (EV "strain_0")]);
 (SFor "i" (EI 0) (EBin Lt (EV "i") (EI 6)) (block [(SFor "j" (EI 0) (EBin Lt (EV "j") (EI 6)) (SStore (EV "strain_pert") (EV "j") (EDbl (EI 0))));
 (SIf (EBin Gt (EFabs (EIdx (EV "strain_0") (EV "i"))) (EDec 1 7)) (SStore (EV "strain_pert") (EV "i") (EIdx (EV "strain_0") (EV "i"))) (SStore (EV "strain_pert") (EV "i") (EV "d_strain")));
 (SCall "get_stress3D" [(EV "this"); (EV "ex"); (EV "ey"); (EV "ez"); (EV "gp"); (EV "strain_pert"); (EV "non_linear"); (EV "stress_pert")]);
 (SFor "j" (EI 0) (EBin Lt (EV "j") (EI 6)) (SStore (EV "ctan") (EIx2 6 (EV "j") (EV "i")) (EBin Div (EIdx (EV "stress_pert") (EV "j")) (EIdx (EV "strain_pert") (EV "i")))))]))]).

(** src/assembly.cpp:534-569 *)
Definition ast_get_ctan_plast_exact : fdef := mkFun ["this"; "ex"; "ey"; "ez"; "gp"; "ctan"]
 (block [(SMalloc "strain" TDbl (EI 6));
 (SSet "e" (EBin Add (EBin Add (EBin Mul (EBin Mul (EV "ez") (EBin Sub (EFld (EV "this") "nx") (EI 1))) (EBin Sub (EFld (EV "this") "ny") (EI 1))) (EBin Mul (EV "ey") (EBin Sub (EFld (EV "this") "nx") (EI 1)))) (EV "ex")));
 (SCall "get_strain3D" [(EV "this"); (EV "ex"); (EV "ey"); (EV "ez"); (EV "gp"); (EV "strain")]);
 (SStruct "material" ["E"; "nu"; "k"; "mu"; "lambda"; "Ka"; "Sy"; "plasticity"; "damage"]);
 (SCall "get_material" [(EV "this"); (EV "e"); (EV "material")]);
 (SFor "i" (EI 0) (EBin Lt (EV "i") (EI 6)) (SFor "j" (EI 0) (EBin Lt (EV "j") (EI 6)) (SStore (EV "ctan") (EIx2 6 (EV "i") (EV "j")) (EDbl (EI 0)))));
 (SFor "i" (EI 0) (EBin Lt (EV "i") (EI 3)) (SFor "j" (EI 0) (EBin Lt (EV "j") (EI 3)) (SStore (EV "ctan") (EIx2 6 (EV "i") (EV "j")) (EBin Add (EIdx2 6 (EV "ctan") (EV "i") (EV "j")) (EFld (EV "material") "lambda")))));
 (SFor "i" (EI 0) (EBin Lt (EV "i") (EI 3)) (SStore (EV "ctan") (EIx2 6 (EV "i") (EV "i")) (EBin Add (EIdx2 6 (EV "ctan") (EV "i") (EV "i")) (EBin Mul (EI 2) (EFld (EV "material") "mu")))));
 (SFor "i" (EI 3) (EBin Lt (EV "i") (EI 6)) (SStore (EV "ctan") (EIx2 6 (EV "i") (EV "i")) (EBin Add (EIdx2 6 (EV "ctan") (EV "i") (EV "i")) (EFld (EV "material") "mu"))))]).

(** src/assembly.cpp:571-588 *)
Definition ast_get_ctan_plast_pert : fdef := mkFun ["this"; "ex"; "ey"; "ez"; "gp"; "ctan"]
 (block [(SMalloc "non_linear" TInt (EI 1));
 (SMalloc "stress_0" TDbl (EI 6));
 (SMalloc "stress_pert" TDbl (EI 6));
 (SMalloc "strain_0" TDbl (EI 6));
 (SMalloc "strain_pert" TDbl (EI 6));
 (SSet "deps" (EDec 1 8));
 (SCall "get_strain3D" [(EV "this"); (EV "ex"); (EV "ey"); (EV "ez"); (EV "gp"); (EV "strain_0")]);
 (SCall "get_stress3D" [(EV "this"); (EV "ex"); (EV "ey"); (EV "ez"); (EV "gp"); (EV "strain_0"); (EV "non_linear"); (EV "stress_0")]);
 (SFor "i" (EI 0) (EBin Lt (EV "i") (EI 6)) (block [(SFor "j" (EI 0) (EBin Lt (EV "j") (EI 6)) (SStore (EV "strain_pert") (EV "j") (EIdx (EV "strain_0") (EV "j"))));
 (SStore (EV "strain_pert") (EV "i") (EBin Add (EIdx (EV "strain_pert") (EV "i")) (EV "deps")));
 (SCall "get_stress3D" [(EV "this"); (EV "ex"); (EV "ey"); (EV "ez"); (EV "gp"); (EV "strain_pert"); (EV "non_linear"); (EV "stress_pert")]);
 (SFor "j" (EI 0) (EBin Lt (EV "j") (EI 6)) (SStore (EV "ctan") (EIx2 6 (EV "j") (EV "i")) (EBin Div (EBin Sub (EIdx (EV "stress_pert") (EV "j")) (EIdx (EV "stress_0") (EV "j"))) (EV "deps"))))]))]).

(** src/assembly.cpp:590-652 *)
Definition ast_calc_bmat_3D : fdef := mkFun ["this"; "gp"; "bmat"]
 (block [(SMalloc "xg" TDbl (EI 24));
 (SStore (EV "xg") (EI 0) (ENeg (EDec 577350269189626 15)));
 (SStore (EV "xg") (EI 1) (ENeg (EDec 577350269189626 15)));
 (SStore (EV "xg") (EI 2) (ENeg (EDec 577350269189626 15)));
 (SStore (EV "xg") (EI 3) (EDec 577350269189626 15));
 (SStore (EV "xg") (EI 4) (ENeg (EDec 577350269189626 15)));
 (SStore (EV "xg") (EI 5) (ENeg (EDec 577350269189626 15)));
 (SStore (EV "xg") (EI 6) (EDec 577350269189626 15));
 (SStore (EV "xg") (EI 7) (EDec 577350269189626 15));
 (SStore (EV "xg") (EI 8) (ENeg (EDec 577350269189626 15)));
 (SStore (EV "xg") (EI 9) (ENeg (EDec 577350269189626 15)));
 (SStore (EV "xg") (EI 10) (EDec 577350269189626 15));
 (SStore (EV "xg") (EI 11) (ENeg (EDec 577350269189626 15)));
 (SStore (EV "xg") (EI 12) (ENeg (EDec 577350269189626 15)));
 (SStore (EV "xg") (EI 13) (ENeg (EDec 577350269189626 15)));
 (SStore (EV "xg") (EI 14) (EDec 577350269189626 15));
 (SStore (EV "xg") (EI 15) (EDec 577350269189626 15));
 (SStore (EV "xg") (EI 16) (ENeg (EDec 577350269189626 15)));
 (SStore (EV "xg") (EI 17) (EDec 577350269189626 15));
 (SStore (EV "xg") (EI 18) (EDec 577350269189626 15));
 (SStore (EV "xg") (EI 19) (EDec 577350269189626 15));
 (SStore (EV "xg") (EI 20) (EDec 577350269189626 15));
 (SStore (EV "xg") (EI 21) (ENeg (EDec 577350269189626 15)));
 (SStore (EV "xg") (EI 22) (EDec 577350269189626 15));
 (SStore (EV "xg") (EI 23) (EDec 577350269189626 15));
 (SMalloc "dsh" TDbl (EI 24));
 (SStore (EV "dsh") (EIx2 3 (EI 0) (EI 0)) (EBin Div (EBin Mul (EBin Div (EBin Mul (ENeg (EBin Sub (EI 1) (EIdx2 3 (EV "xg") (EV "gp") (EI 1)))) (EBin Sub (EI 1) (EIdx2 3 (EV "xg") (EV "gp") (EI 2)))) (EI 8)) (EI 2)) (EFld (EV "this") "dx")));
 (SStore (EV "dsh") (EIx2 3 (EI 0) (EI 1)) (EBin Div (EBin Mul (EBin Div (EBin Mul (ENeg (EBin Sub (EI 1) (EIdx2 3 (EV "xg") (EV "gp") (EI 0)))) (EBin Sub (EI 1) (EIdx2 3 (EV "xg") (EV "gp") (EI 2)))) (EI 8)) (EI 2)) (EFld (EV "this") "dy")));
 (SStore (EV "dsh") (EIx2 3 (EI 0) (EI 2)) (EBin Div (EBin Mul (EBin Div (EBin Mul (ENeg (EBin Sub (EI 1) (EIdx2 3 (EV "xg") (EV "gp") (EI 0)))) (EBin Sub (EI 1) (EIdx2 3 (EV "xg") (EV "gp") (EI 1)))) (EI 8)) (EI 2)) (EFld (EV "this") "dz")));
 (SStore (EV "dsh") (EIx2 3 (EI 1) (EI 0)) (EBin Div (EBin Mul (EBin Div (EBin Mul (EBin Sub (EI 1) (EIdx2 3 (EV "xg") (EV "gp") (EI 1))) (EBin Sub (EI 1) (EIdx2 3 (EV "xg") (EV "gp") (EI 2)))) (EI 8)) (EI 2)) (EFld (EV "this") "dx")));
 (SStore (EV "dsh") (EIx2 3 (EI 1) (EI 1)) (EBin Div (EBin Mul (EBin Div (EBin Mul (ENeg (EBin Add (EI 1) (EIdx2 3 (EV "xg") (EV "gp") (EI 0)))) (EBin Sub (EI 1) (EIdx2 3 (EV "xg") (EV "gp") (EI 2)))) (EI 8)) (EI 2)) (EFld (EV "this") "dy")));
 (SStore (EV "dsh") (EIx2 3 (EI 1) (EI 2)) (EBin Div (EBin Mul (EBin Div (EBin Mul (ENeg (EBin Add (EI 1) (EIdx2 3 (EV "xg") (EV "gp") (EI 0)))) (EBin Sub (EI 1) (EIdx2 3 (EV "xg") (EV "gp") (EI 1)))) (EI 8)) (EI 2)) (EFld (EV "this") "dz")));
 (SStore (EV "dsh") (EIx2 3 (EI 2) (EI 0)) (EBin Div (EBin Mul (EBin Div (EBin Mul (EBin Add (EI 1) (EIdx2 3 (EV "xg") (EV "gp") (EI 1))) (EBin Sub (EI 1) (EIdx2 3 (EV "xg") (EV "gp") (EI 2)))) (EI 8)) (EI 2)) (EFld (EV "this") "dx")));
 (SStore (EV "dsh") (EIx2 3 (EI 2) (EI 1)) (EBin Div (EBin Mul (EBin Div (EBin Mul (EBin Add (EI 1) (EIdx2 3 (EV "xg") (EV "gp") (EI 0))) (EBin Sub (EI 1) (EIdx2 3 (EV "xg") (EV "gp") (EI 2)))) (EI 8)) (EI 2)) (EFld (EV "this") "dy")));
 (SStore (EV "dsh") (EIx2 3 (EI 2) (EI 2)) (EBin Div (EBin Mul (EBin Div (EBin Mul (ENeg (EBin Add (EI 1) (EIdx2 3 (EV "xg") (EV "gp") (EI 0)))) (EBin Add (EI 1) (EIdx2 3 (EV "xg") (EV "gp") (EI 1)))) (EI 8)) (EI 2)) (EFld (EV "this") "dz")));
 (SStore (EV "dsh") (EIx2 3 (EI 3) (EI 0)) (EBin Div (EBin Mul (EBin Div (EBin Mul (ENeg (EBin Add (EI 1) (EIdx2 3 (EV "xg") (EV "gp") (EI 1)))) (EBin Sub (EI 1) (EIdx2 3 (EV "xg") (EV "gp") (EI 2)))) (EI 8)) (EI 2)) (EFld (EV "this") "dx")));
 (SStore (EV "dsh") (EIx2 3 (EI 3) (EI 1)) (EBin Div (EBin Mul (EBin Div (EBin Mul (EBin Sub (EI 1) (EIdx2 3 (EV "xg") (EV "gp") (EI 0))) (EBin Sub (EI 1) (EIdx2 3 (EV "xg") (EV "gp") (EI 2)))) (EI 8)) (EI 2)) (EFld (EV "this") "dy")));
 (SStore (EV "dsh") (EIx2 3 (EI 3) (EI 2)) (EBin Div (EBin Mul (EBin Div (EBin Mul (ENeg (EBin Sub (EI 1) (EIdx2 3 (EV "xg") (EV "gp") (EI 0)))) (EBin Add (EI 1) (EIdx2 3 (EV "xg") (EV "gp") (EI 1)))) (EI 8)) (EI 2)) (EFld (EV "this") "dz")));
 (SStore (EV "dsh") (EIx2 3 (EI 4) (EI 0)) (EBin Div (EBin Mul (EBin Div (EBin Mul (ENeg (EBin Sub (EI 1) (EIdx2 3 (EV "xg") (EV "gp") (EI 1)))) (EBin Add (EI 1) (EIdx2 3 (EV "xg") (EV "gp") (EI 2)))) (EI 8)) (EI 2)) (EFld (EV "this") "dx")));
 (SStore (EV "dsh") (EIx2 3 (EI 4) (EI 1)) (EBin Div (EBin Mul (EBin Div (EBin Mul (ENeg (EBin Sub (EI 1) (EIdx2 3 (EV "xg") (EV "gp") (EI 0)))) (EBin Add (EI 1) (EIdx2 3 (EV "xg") (EV "gp") (EI 2)))) (EI 8)) (EI 2)) (EFld (EV "this") "dy")));
 (SStore (EV "dsh") (EIx2 3 (EI 4) (EI 2)) (EBin Div (EBin Mul (EBin Div (EBin Mul (EBin Sub (EI 1) (EIdx2 3 (EV "xg") (EV "gp") (EI 0))) (EBin Sub (EI 1) (EIdx2 3 (EV "xg") (EV "gp") (EI 1)))) (EI 8)) (EI 2)) (EFld (EV "this") "dz")));
 (SStore (EV "dsh") (EIx2 3 (EI 5) (EI 0)) (EBin Div (EBin Mul (EBin Div (EBin Mul (EBin Sub (EI 1) (EIdx2 3 (EV "xg") (EV "gp") (EI 1))) (EBin Add (EI 1) (EIdx2 3 (EV "xg") (EV "gp") (EI 2)))) (EI 8)) (EI 2)) (EFld (EV "this") "dx")));
 (SStore (EV "dsh") (EIx2 3 (EI 5) (EI 1)) (EBin Div (EBin Mul (EBin Div (EBin Mul (ENeg (EBin Add (EI 1) (EIdx2 3 (EV "xg") (EV "gp") (EI 0)))) (EBin Add (EI 1) (EIdx2 3 (EV "xg") (EV "gp") (EI 2)))) (EI 8)) (EI 2)) (EFld (EV "this") "dy")));
 (SStore (EV "dsh") (EIx2 3 (EI 5) (EI 2)) (EBin Div (EBin Mul (EBin Div (EBin Mul (EBin Add (EI 1) (EIdx2 3 (EV "xg") (EV "gp") (EI 0))) (EBin Sub (EI 1) (EIdx2 3 (EV "xg") (EV "gp") (EI 1)))) (EI 8)) (EI 2)) (EFld (EV "this") "dz")));
 (SStore (EV "dsh") (EIx2 3 (EI 6) (EI 0)) (EBin Div (EBin Mul (EBin Div (EBin Mul (EBin Add (EI 1) (EIdx2 3 (EV "xg") (EV "gp") (EI 1))) (EBin Add (EI 1) (EIdx2 3 (EV "xg") (EV "gp") (EI 2)))) (EI 8)) (EI 2)) (EFld (EV "this") "dx")));
 (SStore (EV "dsh") (EIx2 3 (EI 6) (EI 1)) (EBin Div (EBin Mul (EBin Div (EBin Mul (EBin Add (EI 1) (EIdx2 3 (EV "xg") (EV "gp") (EI 0))) (EBin Add (EI 1) (EIdx2 3 (EV "xg") (EV "gp") (EI 2)))) (EI 8)) (EI 2)) (EFld (EV "this") "dy")));
 (SStore (EV "dsh") (EIx2 3 (EI 6) (EI 2)) (EBin Div (EBin Mul (EBin Div (EBin Mul (EBin Add (EI 1) (EIdx2 3 (EV "xg") (EV "gp") (EI 0))) (EBin Add (EI 1) (EIdx2 3 (EV "xg") (EV "gp") (EI 1)))) (EI 8)) (EI 2)) (EFld (EV "this") "dz")));
 (SStore (EV "dsh") (EIx2 3 (EI 7) (EI 0)) (EBin Div (EBin Mul (EBin Div (EBin Mul (ENeg (EBin Add (EI 1) (EIdx2 3 (EV "xg") (EV "gp") (EI 1)))) (EBin Add (EI 1) (EIdx2 3 (EV "xg") (EV "gp") (EI 2)))) (EI 8)) (EI 2)) (EFld (EV "this") "dx")));
 (SStore (EV "dsh") (EIx2 3 (EI 7) (EI 1)) (EBin Div (EBin Mul (EBin Div (EBin Mul (EBin Sub (EI 1) (EIdx2 3 (EV "xg") (EV "gp") (EI 0))) (EBin Add (EI 1) (EIdx2 3 (EV "xg") (EV "gp") (EI 2)))) (EI 8)) (EI 2)) (EFld (EV "this") "dy")));
 (SStore (EV "dsh") (EIx2 3 (EI 7) (EI 2)) (EBin Div (EBin Mul (EBin Div (EBin Mul (EBin Sub (EI 1) (EIdx2 3 (EV "xg") (EV "gp") (EI 0))) (EBin Add (EI 1) (EIdx2 3 (EV "xg") (EV "gp") (EI 1)))) (EI 8)) (EI 2)) (EFld (EV "this") "dz")));
 (SFor "i" (EI 0) (EBin Lt (EV "i") (EI 8)) (block [(SStore (EV "bmat") (EIx2 24 (EI 0) (EBin Mul (EV "i") (EFld (EV "this") "dim"))) (EIdx2 3 (EV "dsh") (EV "i") (EI 0)));
 (SStore (EV "bmat") (EIx2 24 (EI 0) (EBin Add (EBin Mul (EV "i") (EFld (EV "this") "dim")) (EI 1))) (EI 0));
 (SStore (EV "bmat") (EIx2 24 (EI 0) (EBin Add (EBin Mul (EV "i") (EFld (EV "this") "dim")) (EI 2))) (EI 0));
 (SStore (EV "bmat") (EIx2 24 (EI 1) (EBin Mul (EV "i") (EFld (EV "this") "dim"))) (EI 0));
 (SStore (EV "bmat") (EIx2 24 (EI 1) (EBin Add (EBin Mul (EV "i") (EFld (EV "this") "dim")) (EI 1))) (EIdx2 3 (EV "dsh") (EV "i") (EI 1)));
 (SStore (EV "bmat") (EIx2 24 (EI 1) (EBin Add (EBin Mul (EV "i") (EFld (EV "this") "dim")) (EI 2))) (EI 0));
 (SStore (EV "bmat") (EIx2 24 (EI 2) (EBin Mul (EV "i") (EFld (EV "this") "dim"))) (EI 0));
 (SStore (EV "bmat") (EIx2 24 (EI 2) (EBin Add (EBin Mul (EV "i") (EFld (EV "this") "dim")) (EI 1))) (EI 0));
 (SStore (EV "bmat") (EIx2 24 (EI 2) (EBin Add (EBin Mul (EV "i") (EFld (EV "this") "dim")) (EI 2))) (EIdx2 3 (EV "dsh") (EV "i") (EI 2)));
 (SStore (EV "bmat") (EIx2 24 (EI 3) (EBin Mul (EV "i") (EFld (EV "this") "dim"))) (EIdx2 3 (EV "dsh") (EV "i") (EI 1)));
 (SStore (EV "bmat") (EIx2 24 (EI 3) (EBin Add (EBin Mul (EV "i") (EFld (EV "this") "dim")) (EI 1))) (EIdx2 3 (EV "dsh") (EV "i") (EI 0)));
 (SStore (EV "bmat") (EIx2 24 (EI 3) (EBin Add (EBin Mul (EV "i") (EFld (EV "this") "dim")) (EI 2))) (EI 0));
 (SStore (EV "bmat") (EIx2 24 (EI 4) (EBin Mul (EV "i") (EFld (EV "this") "dim"))) (EIdx2 3 (EV "dsh") (EV "i") (EI 2)));
 (SStore (EV "bmat") (EIx2 24 (EI 4) (EBin Add (EBin Mul (EV "i") (EFld (EV "this") "dim")) (EI 1))) (EI 0));
 (SStore (EV "bmat") (EIx2 24 (EI 4) (EBin Add (EBin Mul (EV "i") (EFld (EV "this") "dim")) (EI 2))) (EIdx2 3 (EV "dsh") (EV "i") (EI 0)));
 (SStore (EV "bmat") (EIx2 24 (EI 5) (EBin Mul (EV "i") (EFld (EV "this") "dim"))) (EI 0));
 (SStore (EV "bmat") (EIx2 24 (EI 5) (EBin Add (EBin Mul (EV "i") (EFld (EV "this") "dim")) (EI 1))) (EIdx2 3 (EV "dsh") (EV "i") (EI 2)));
 (SStore (EV "bmat") (EIx2 24 (EI 5) (EBin Add (EBin Mul (EV "i") (EFld (EV "this") "dim")) (EI 2))) (EIdx2 3 (EV "dsh") (EV "i") (EI 1)))]))]).

(** src/assembly.cpp:654-699 *)
Definition ast_get_elem_rhs2D : fdef := mkFun ["this"; "ex"; "ey"; "non_linear"; "be"]
 (block [(SMalloc "dsh" TDbl (EI 8));
 (SMalloc "bmat" TDbl (EI 24));
 (SMalloc "cxb" TDbl (EI 24));
 (SMalloc "stress_gp" TDbl (EI 6));
 (SMalloc "xg" TDbl (EI 8));
 (SStore (EV "xg") (EI 0) (ENeg (EDec 577350269189626 15)));
 (SStore (EV "xg") (EI 1) (ENeg (EDec 577350269189626 15)));
 (SStore (EV "xg") (EI 2) (EDec 577350269189626 15));
 (SStore (EV "xg") (EI 3) (ENeg (EDec 577350269189626 15)));
 (SStore (EV "xg") (EI 4) (EDec 577350269189626 15));
 (SStore (EV "xg") (EI 5) (EDec 577350269189626 15));
 (SStore (EV "xg") (EI 6) (ENeg (EDec 577350269189626 15)));
 (SStore (EV "xg") (EI 7) (EDec 577350269189626 15));
 (SFor "i" (EI 0) (EBin Lt (EV "i") (EBin Mul (EI 2) (EI 4))) (SStore (EV "be") (EV "i") (EDbl (EI 0))));
 (SFor "gp" (EI 0) (EBin Lt (EV "gp") (EI 4)) (block [(SStore (EV "dsh") (EIx2 2 (EI 0) (EI 0)) (EBin Div (EBin Mul (EBin Div (ENeg (EBin Sub (EI 1) (EIdx2 2 (EV "xg") (EV "gp") (EI 1)))) (EI 4)) (EI 2)) (EFld (EV "this") "dx")));
 (SStore (EV "dsh") (EIx2 2 (EI 0) (EI 1)) (EBin Div (EBin Mul (EBin Div (ENeg (EBin Sub (EI 1) (EIdx2 2 (EV "xg") (EV "gp") (EI 0)))) (EI 4)) (EI 2)) (EFld (EV "this") "dy")));
 (SStore (EV "dsh") (EIx2 2 (EI 1) (EI 0)) (EBin Div (EBin Mul (EBin Div (EBin Sub (EI 1) (EIdx2 2 (EV "xg") (EV "gp") (EI 1))) (EI 4)) (EI 2)) (EFld (EV "this") "dx")));
 (SStore (EV "dsh") (EIx2 2 (EI 1) (EI 1)) (EBin Div (EBin Mul (EBin Div (ENeg (EBin Add (EI 1) (EIdx2 2 (EV "xg") (EV "gp") (EI 0)))) (EI 4)) (EI 2)) (EFld (EV "this") "dy")));
 (SStore (EV "dsh") (EIx2 2 (EI 2) (EI 0)) (EBin Div (EBin Mul (EBin Div (EBin Add (EI 1) (EIdx2 2 (EV "xg") (EV "gp") (EI 1))) (EI 4)) (EI 2)) (EFld (EV "this") "dx")));
 (SStore (EV "dsh") (EIx2 2 (EI 2) (EI 1)) (EBin Div (EBin Mul (EBin Div (EBin Add (EI 1) (EIdx2 2 (EV "xg") (EV "gp") (EI 0))) (EI 4)) (EI 2)) (EFld (EV "this") "dy")));
 (SStore (EV "dsh") (EIx2 2 (EI 3) (EI 0)) (EBin Div (EBin Mul (EBin Div (ENeg (EBin Add (EI 1) (EIdx2 2 (EV "xg") (EV "gp") (EI 1)))) (EI 4)) (EI 2)) (EFld (EV "this") "dx")));
 (SStore (EV "dsh") (EIx2 2 (EI 3) (EI 1)) (EBin Div (EBin Mul (EBin Div (EBin Sub (EI 1) (EIdx2 2 (EV "xg") (EV "gp") (EI 0))) (EI 4)) (EI 2)) (EFld (EV "this") "dy")));
 (SFor "i" (EI 0) (EBin Lt (EV "i") (EI 4)) (block [(SStore (EV "bmat") (EIx2 8 (EI 0) (EBin Mul (EV "i") (EFld (EV "this") "dim"))) (EIdx2 2 (EV "dsh") (EV "i") (EI 0)));
 (SStore (EV "bmat") (EIx2 8 (EI 0) (EBin Add (EBin Mul (EV "i") (EFld (EV "this") "dim")) (EI 1))) (EI 0));
 (SStore (EV "bmat") (EIx2 8 (EI 1) (EBin Mul (EV "i") (EFld (EV "this") "dim"))) (EI 0));
 (SStore (EV "bmat") (EIx2 8 (EI 1) (EBin Add (EBin Mul (EV "i") (EFld (EV "this") "dim")) (EI 1))) (EIdx2 2 (EV "dsh") (EV "i") (EI 1)));
 (SStore (EV "bmat") (EIx2 8 (EI 2) (EBin Mul (EV "i") (EFld (EV "this") "dim"))) (EIdx2 2 (EV "dsh") (EV "i") (EI 1)));
 (SStore (EV "bmat") (EIx2 8 (EI 2) (EBin Add (EBin Mul (EV "i") (EFld (EV "this") "dim")) (EI 1))) (EIdx2 2 (EV "dsh") (EV "i") (EI 0)))]));
 (SMalloc "strain_gp" TDbl (EI 3));
 (SCall "get_strain2D" [(EV "this"); (EV "ex"); (EV "ey"); (EV "gp"); (EV "strain_gp")]);
 (SCall "get_stress2D" [(EV "this"); (EV "ex"); (EV "ey"); (EV "gp"); (EV "strain_gp"); (EV "non_linear"); (EV "stress_gp")]);
 (SSet "wg" (EBin Mul (EBin Mul (EDec 25 2) (EFld (EV "this") "dx")) (EFld (EV "this") "dy")));
 (SFor "i" (EI 0) (EBin Lt (EV "i") (EBin Mul (EFld (EV "this") "npe") (EFld (EV "this") "dim"))) (SFor "j" (EI 0) (EBin Lt (EV "j") (EFld (EV "this") "nvoi")) (SStore (EV "be") (EV "i") (EBin Add (EIdx (EV "be") (EV "i")) (EBin Mul (EBin Mul (EIdx2 8 (EV "bmat") (EV "j") (EV "i")) (EIdx (EV "stress_gp") (EV "j"))) (EV "wg"))))))]))]).

(** src/assembly.cpp:701-722 *)
Definition ast_get_elem_rhs3D : fdef := mkFun ["this"; "ex"; "ey"; "ez"; "non_linear"; "be"]
 (block [(SMalloc "bmat" TDbl (EI 144));
 (SMalloc "cxb" TDbl (EI 144));
 (SMalloc "stress_gp" TDbl (EI 6));
 (SFor "i" (EI 0) (EBin Lt (EV "i") (EBin Mul (EI 3) (EI 8))) (SStore (EV "be") (EV "i") (EDbl (EI 0))));
 (SFor "gp" (EI 0) (EBin Lt (EV "gp") (EI 8)) (block [(SCall "calc_bmat_3D" [(EV "this"); (EV "gp"); (EV "bmat")]);
 (SMalloc "strain_gp" TDbl (EI 6));
 (SCall "get_strain3D" [(EV "this"); (EV "ex"); (EV "ey"); (EV "ez"); (EV "gp"); (EV "strain_gp")]);
 (SCall "get_stress3D" [(EV "this"); (EV "ex"); (EV "ey"); (EV "ez"); (EV "gp"); (EV "strain_gp"); (EV "non_linear"); (EV "stress_gp")]);
 (SSet "wg" (EBin Mul (EBin Mul (EBin Mul (EBin Div (EI 1) (EDbl (EI 8))) (EFld (EV "this") "dx")) (EFld (EV "this") "dy")) (EFld (EV "this") "dz")));
 (SFor "i" (EI 0) (EBin Lt (EV "i") (EBin Mul (EFld (EV "this") "npe") (EFld (EV "this") "dim"))) (SFor "j" (EI 0) (EBin Lt (EV "j") (EFld (EV "this") "nvoi")) (SStore (EV "be") (EV "i") (EBin Add (EIdx (EV "be") (EV "i")) (EBin Mul (EBin Mul (EIdx2 24 (EV "bmat") (EV "j") (EV "i")) (EIdx (EV "stress_gp") (EV "j"))) (EV "wg"))))))]))]).

(** src/assembly.cpp:724-788 *)
Definition ast_calc_ave_stress : fdef := mkFun ["this"; "stress_ave"]
 (block [(SMalloc "non_linear_flag" TInt (EI 1));
 (SFor "v" (EI 0) (EBin Lt (EV "v") (EFld (EV "this") "nvoi")) (SStore (EV "stress_ave") (EV "v") (EDbl (EI 0))));
 (SIf (EBin Eq (EFld (EV "this") "dim") (EI 2)) (SFor "ex" (EI 0) (EBin Lt (EV "ex") (EBin Sub (EFld (EV "this") "nx") (EI 1))) (SFor "ey" (EI 0) (EBin Lt (EV "ey") (EBin Sub (EFld (EV "this") "ny") (EI 1))) (block [(SMalloc "stress_aux" TDbl (EI 3));
 (SFor "i" (EI 0) (EBin Lt (EV "i") (EFld (EV "this") "nvoi")) (SStore (EV "stress_aux") (EV "i") (EDbl (EI 0))));
 (SFor "gp" (EI 0) (EBin Lt (EV "gp") (EI 4)) (block [(SMalloc "stress_gp" TDbl (EI 6));
 (SSet "wg" (EBin Mul (EBin Mul (EDec 25 2) (EFld (EV "this") "dx")) (EFld (EV "this") "dy")));
 (SMalloc "strain_gp" TDbl (EI 3));
 (SCall "get_strain2D" [(EV "this"); (EV "ex"); (EV "ey"); (EV "gp"); (EV "strain_gp")]);
 (SCall "get_stress2D" [(EV "this"); (EV "ex"); (EV "ey"); (EV "gp"); (EV "strain_gp"); (EV "non_linear_flag"); (EV "stress_gp")]);
 (SFor "v" (EI 0) (EBin Lt (EV "v") (EFld (EV "this") "nvoi")) (SStore (EV "stress_aux") (EV "v") (EBin Add (EIdx (EV "stress_aux") (EV "v")) (EBin Mul (EIdx (EV "stress_gp") (EV "v")) (EV "wg")))))]));
 (SFor "v" (EI 0) (EBin Lt (EV "v") (EFld (EV "this") "nvoi")) (SStore (EV "stress_ave") (EV "v") (EBin Add (EIdx (EV "stress_ave") (EV "v")) (EIdx (EV "stress_aux") (EV "v")))))]))) (SIf (EBin Eq (EFld (EV "this") "dim") (EI 3)) (SFor "ex" (EI 0) (EBin Lt (EV "ex") (EBin Sub (EFld (EV "this") "nx") (EI 1))) (SFor "ey" (EI 0) (EBin Lt (EV "ey") (EBin Sub (EFld (EV "this") "ny") (EI 1))) (SFor "ez" (EI 0) (EBin Lt (EV "ez") (EBin Sub (EFld (EV "this") "nz") (EI 1))) (block [(SMalloc "stress_aux" TDbl (EI 6));
 (SFor "i" (EI 0) (EBin Lt (EV "i") (EFld (EV "this") "nvoi")) (SStore (EV "stress_aux") (EV "i") (EDbl (EI 0))));
 (SFor "gp" (EI 0) (EBin Lt (EV "gp") (EI 8)) (block [(SMalloc "stress_gp" TDbl (EI 6));
 (SSet "wg" (EBin Mul (EBin Mul (EBin Mul (EBin Div (EI 1) (EDbl (EI 8))) (EFld (EV "this") "dx")) (EFld (EV "this") "dy")) (EFld (EV "this") "dz")));
 (SMalloc "strain_gp" TDbl (EI 6));
 (SCall "get_strain3D" [(EV "this"); (EV "ex"); (EV "ey"); (EV "ez"); (EV "gp"); (EV "strain_gp")]);
 (SCall "get_stress3D" [(EV "this"); (EV "ex"); (EV "ey"); (EV "ez"); (EV "gp"); (EV "strain_gp"); (EV "non_linear_flag"); (EV "stress_gp")]);
 (SFor "v" (EI 0) (EBin Lt (EV "v") (EFld (EV "this") "nvoi")) (SStore (EV "stress_aux") (EV "v") (EBin Add (EIdx (EV "stress_aux") (EV "v")) (EBin Mul (EIdx (EV "stress_gp") (EV "v")) (EV "wg")))))]));
 (SFor "v" (EI 0) (EBin Lt (EV "v") (EFld (EV "this") "nvoi")) (SStore (EV "stress_ave") (EV "v") (EBin Add (EIdx (EV "stress_ave") (EV "v")) (EIdx (EV "stress_aux") (EV "v")))))])))) SSkip));
 (SFor "v" (EI 0) (EBin Lt (EV "v") (EFld (EV "this") "nvoi")) (SStore (EV "stress_ave") (EV "v") (EBin Div (EIdx (EV "stress_ave") (EV "v")) (EBin Mul (EFld (EV "this") "lx") (EFld (EV "this") "ly")))))]).

(** src/assembly.cpp:790-844 *)
Definition ast_calc_ave_strain : fdef := mkFun ["this"; "strain_ave"]
 (block [(SFor "v" (EI 0) (EBin Lt (EV "v") (EFld (EV "this") "nvoi")) (SStore (EV "strain_ave") (EV "v") (EDbl (EI 0))));
 (SIf (EBin Eq (EFld (EV "this") "dim") (EI 2)) (SFor "ex" (EI 0) (EBin Lt (EV "ex") (EBin Sub (EFld (EV "this") "nx") (EI 1))) (SFor "ey" (EI 0) (EBin Lt (EV "ey") (EBin Sub (EFld (EV "this") "ny") (EI 1))) (block [(SMalloc "strain_aux" TDbl (EI 3));
 (SFor "i" (EI 0) (EBin Lt (EV "i") (EFld (EV "this") "nvoi")) (SStore (EV "strain_aux") (EV "i") (EDbl (EI 0))));
 (SFor "gp" (EI 0) (EBin Lt (EV "gp") (EI 4)) (block [(SMalloc "strain_gp" TDbl (EI 6));
 (SSet "wg" (EBin Mul (EBin Mul (EDec 25 2) (EFld (EV "this") "dx")) (EFld (EV "this") "dy")));
 (SCall "get_strain2D" [(EV "this"); (EV "ex"); (EV "ey"); (EV "gp"); (EV "strain_gp")]);
 (SFor "v" (EI 0) (EBin Lt (EV "v") (EFld (EV "this") "nvoi")) (SStore (EV "strain_aux") (EV "v") (EBin Add (EIdx (EV "strain_aux") (EV "v")) (EBin Mul (EIdx (EV "strain_gp") (EV "v")) (EV "wg")))))]));
 (SFor "v" (EI 0) (EBin Lt (EV "v") (EFld (EV "this") "nvoi")) (SStore (EV "strain_ave") (EV "v") (EBin Add (EIdx (EV "strain_ave") (EV "v")) (EIdx (EV "strain_aux") (EV "v")))))]))) (SIf (EBin Eq (EFld (EV "this") "dim") (EI 3)) (SFor "ex" (EI 0) (EBin Lt (EV "ex") (EBin Sub (EFld (EV "this") "nx") (EI 1))) (SFor "ey" (EI 0) (EBin Lt (EV "ey") (EBin Sub (EFld (EV "this") "ny") (EI 1))) (SFor "ez" (EI 0) (EBin Lt (EV "ez") (EBin Sub (EFld (EV "this") "nz") (EI 1))) (block [(SMalloc "strain_aux" TDbl (EI 6));
 (SFor "i" (EI 0) (EBin Lt (EV "i") (EFld (EV "this") "nvoi")) (SStore (EV "strain_aux") (EV "i") (EDbl (EI 0))));
 (SFor "gp" (EI 0) (EBin Lt (EV "gp") (EI 8)) (block [(SMalloc "strain_gp" TDbl (EI 6));
 (SSet "wg" (EBin Mul (EBin Mul (EBin Mul (EBin Div (EI 1) (EDbl (EI 8))) (EFld (EV "this") "dx")) (EFld (EV "this") "dy")) (EFld (EV "this") "dz")));
 (SCall "get_strain3D" [(EV "this"); (EV "ex"); (EV "ey"); (EV "ez"); (EV "gp"); (EV "strain_gp")]);
 (SFor "v" (EI 0) (EBin Lt (EV "v") (EFld (EV "this") "nvoi")) (SStore (EV "strain_aux") (EV "v") (EBin Add (EIdx (EV "strain_aux") (EV "v")) (EBin Mul (EIdx (EV "strain_gp") (EV "v")) (EV "wg")))))]));
 (SFor "v" (EI 0) (EBin Lt (EV "v") (EFld (EV "this") "nvoi")) (SStore (EV "strain_ave") (EV "v") (EBin Add (EIdx (EV "strain_ave") (EV "v")) (EIdx (EV "strain_aux") (EV "v")))))])))) SSkip));
 (SFor "v" (EI 0) (EBin Lt (EV "v") (EFld (EV "this") "nvoi")) (SStore (EV "strain_ave") (EV "v") (EBin Div (EIdx (EV "strain_ave") (EV "v")) (EBin Mul (EFld (EV "this") "lx") (EFld (EV "this") "ly")))))]).

(** src/assembly.cpp:846-922 *)
Definition ast_calc_fields : fdef := mkFun ["this"]
 (block [(SMalloc "non_linear_flag" TInt (EI 1));
 (SIf (EBin Eq (EFld (EV "this") "dim") (EI 2)) (SFor "ex" (EI 0) (EBin Lt (EV "ex") (EBin Sub (EFld (EV "this") "nx") (EI 1))) (SFor "ey" (EI 0) (EBin Lt (EV "ey") (EBin Sub (EFld (EV "this") "ny") (EI 1))) (block [(SMalloc "strain_aux" TDbl (EI 3));
 (SMalloc "stress_aux" TDbl (EI 3));
 (SFor "i" (EI 0) (EBin Lt (EV "i") (EFld (EV "this") "nvoi")) (block [(SStore (EV "strain_aux") (EV "i") (EDbl (EI 0)));
 (SStore (EV "stress_aux") (EV "i") (EDbl (EI 0)))]));
 (SFor "gp" (EI 0) (EBin Lt (EV "gp") (EI 4)) (block [(SMalloc "stress_gp" TDbl (EI 3));
 (SMalloc "strain_gp" TDbl (EI 3));
 (SSet "wg" (EBin Mul (EBin Mul (EDec 25 2) (EFld (EV "this") "dx")) (EFld (EV "this") "dy")));
 (SCall "get_strain2D" [(EV "this"); (EV "ex"); (EV "ey"); (EV "gp"); (EV "strain_gp")]);
 (SCall "get_stress2D" [(EV "this"); (EV "ex"); (EV "ey"); (EV "gp"); (EV "strain_gp"); (EV "non_linear_flag"); (EV "stress_gp")]);
 (SFor "v" (EI 0) (EBin Lt (EV "v") (EFld (EV "this") "nvoi")) (block [(SStore (EV "strain_aux") (EV "v") (EBin Add (EIdx (EV "strain_aux") (EV "v")) (EBin Mul (EIdx (EV "strain_gp") (EV "v")) (EV "wg"))));
 (SStore (EV "stress_aux") (EV "v") (EBin Add (EIdx (EV "stress_aux") (EV "v")) (EBin Mul (EIdx (EV "stress_gp") (EV "v")) (EV "wg"))))]))]));
 (SSet "vol" (EBin Mul (EFld (EV "this") "dx") (EFld (EV "this") "dy")));
 (SSet "e" (EBin Add (EBin Add (EBin Mul (EBin Mul (EI 0) (EBin Sub (EFld (EV "this") "nx") (EI 1))) (EBin Sub (EFld (EV "this") "ny") (EI 1))) (EBin Mul (EV "ey") (EBin Sub (EFld (EV "this") "nx") (EI 1)))) (EV "ex")));
 (SFor "v" (EI 0) (EBin Lt (EV "v") (EFld (EV "this") "nvoi")) (block [(SStore (EFld (EV "this") "elem_strain") (EBin Add (EBin Mul (EV "e") (EFld (EV "this") "nvoi")) (EV "v")) (EBin Div (EIdx (EV "strain_aux") (EV "v")) (EV "vol")));
 (SStore (EFld (EV "this") "elem_stress") (EBin Add (EBin Mul (EV "e") (EFld (EV "this") "nvoi")) (EV "v")) (EBin Div (EIdx (EV "stress_aux") (EV "v")) (EV "vol")))]))]))) (SIf (EBin Eq (EFld (EV "this") "dim") (EI 3)) (SFor "ex" (EI 0) (EBin Lt (EV "ex") (EBin Sub (EFld (EV "this") "nx") (EI 1))) (SFor "ey" (EI 0) (EBin Lt (EV "ey") (EBin Sub (EFld (EV "this") "ny") (EI 1))) (SFor "ez" (EI 0) (EBin Lt (EV "ez") (EBin Sub (EFld (EV "this") "nz") (EI 1))) (block [(SMalloc "strain_aux" TDbl (EI 6));
 (SMalloc "stress_aux" TDbl (EI 6));
 (SFor "i" (EI 0) (EBin Lt (EV "i") (EFld (EV "this") "nvoi")) (block [(SStore (EV "strain_aux") (EV "i") (EDbl (EI 0)));
 (SStore (EV "stress_aux") (EV "i") (EDbl (EI 0)))]));
 (SFor "gp" (EI 0) (EBin Lt (EV "gp") (EI 8)) (block [(SMalloc "stress_gp" TDbl (EI 6));
 (SMalloc "strain_gp" TDbl (EI 6));
 (SSet "wg" (EBin Mul (EBin Mul (EBin Mul (EBin Div (EI 1) (EDbl (EI 8))) (EFld (EV "this") "dx")) (EFld (EV "this") "dy")) (EFld (EV "this") "dz")));
 (SCall "get_strain3D" [(EV "this"); (EV "ex"); (EV "ey"); (EV "ez"); (EV "gp"); (EV "strain_gp")]);
 (SCall "get_stress3D" [(EV "this"); (EV "ex"); (EV "ey"); (EV "ez"); (EV "gp"); (EV "strain_gp"); (EV "non_linear_flag"); (EV "stress_gp")]);
 (SFor "v" (EI 0) (EBin Lt (EV "v") (EFld (EV "this") "nvoi")) (block [(SStore (EV "strain_aux") (EV "v") (EBin Add (EIdx (EV "strain_aux") (EV "v")) (EBin Mul (EIdx (EV "strain_gp") (EV "v")) (EV "wg"))));
 (SStore (EV "stress_aux") (EV "v") (EBin Add (EIdx (EV "stress_aux") (EV "v")) (EBin Mul (EIdx (EV "stress_gp") (EV "v")) (EV "wg"))))]))]));
 (SSet "vol" (EBin Mul (EBin Mul (EFld (EV "this") "dx") (EFld (EV "this") "dy")) (EFld (EV "this") "dz")));
 (SSet "e" (EBin Add (EBin Add (EBin Mul (EBin Mul (EV "ez") (EBin Sub (EFld (EV "this") "nx") (EI 1))) (EBin Sub (EFld (EV "this") "ny") (EI 1))) (EBin Mul (EV "ey") (EBin Sub (EFld (EV "this") "nx") (EI 1)))) (EV "ex")));
 (SFor "v" (EI 0) (EBin Lt (EV "v") (EFld (EV "this") "nvoi")) (block [(SStore (EFld (EV "this") "elem_strain") (EBin Add (EBin Mul (EV "e") (EFld (EV "this") "nvoi")) (EV "v")) (EBin Div (EIdx (EV "strain_aux") (EV "v")) (EV "vol")));
 (SStore (EFld (EV "this") "elem_stress") (EBin Add (EBin Mul (EV "e") (EFld (EV "this") "nvoi")) (EV "v")) (EBin Div (EIdx (EV "stress_aux") (EV "v")) (EV "vol")))]))])))) SSkip))]).

(** src/assembly.cpp:924-961 *)
Definition ast_get_stress2D : fdef := mkFun ["this"; "ex"; "ey"; "gp"; "strain_gp"; "non_linear"; "stress_gp"]
 (block [(SStore (EV "non_linear") (EI 0) (EI 0));
 (SMalloc "ctan" TDbl (EI 9));
 (SSet "e" (EBin Add (EBin Add (EBin Mul (EBin Mul (EI 0) (EBin Sub (EFld (EV "this") "nx") (EI 1))) (EBin Sub (EFld (EV "this") "ny") (EI 1))) (EBin Mul (EV "ey") (EBin Sub (EFld (EV "this") "nx") (EI 1)))) (EV "ex")));
 (SStruct "material" ["E"; "nu"; "k"; "mu"; "lambda"; "Ka"; "Sy"; "plasticity"; "damage"]);
 (SCall "get_material" [(EV "this"); (EV "e"); (EV "material")]);
 (SSet "E" (EFld (EV "material") "E"));
 (SSet "nu" (EFld (EV "material") "nu"));
 (SSet "plasticity" (EFld (EV "material") "plasticity"));
 (SStore (EV "ctan") (EIx2 3 (EI 0) (EI 0)) (EBin Sub (EI 1) (EV "nu")));
 (SStore (EV "ctan") (EIx2 3 (EI 0) (EI 1)) (EV "nu"));
 (SStore (EV "ctan") (EIx2 3 (EI 0) (EI 2)) (EI 0));
 (SStore (EV "ctan") (EIx2 3 (EI 1) (EI 0)) (EV "nu"));
 (SStore (EV "ctan") (EIx2 3 (EI 1) (EI 1)) (EBin Sub (EI 1) (EV "nu")));
 (SStore (EV "ctan") (EIx2 3 (EI 1) (EI 2)) (EI 0));
 (SStore (EV "ctan") (EIx2 3 (EI 2) (EI 0)) (EI 0));
 (SStore (EV "ctan") (EIx2 3 (EI 2) (EI 1)) (EI 0));
 (SStore (EV "ctan") (EIx2 3 (EI 2) (EI 2)) (EBin Div (EBin Sub (EI 1) (EBin Mul (EI 2) (EV "nu"))) (EI 2)));
 (SFor "i" (EI 0) (EBin Lt (EV "i") (EFld (EV "this") "nvoi")) (SFor "j" (EI 0) (EBin Lt (EV "j") (EFld (EV "this") "nvoi")) (SStore (EV "ctan") (EIx2 3 (EV "i") (EV "j")) (EBin Mul (EIdx2 3 (EV "ctan") (EV "i") (EV "j")) (EBin Div (EV "E") (EBin Mul (EBin Add (EI 1) (EV "nu")) (EBin Sub (EI 1) (EBin Mul (EI 2) (EV "nu")))))))));
 (SFor "i" (EI 0) (EBin Lt (EV "i") (EI 3)) (block [(SStore (EV "stress_gp") (EV "i") (EDbl (EI 0)));
 (SFor "j" (EI 0) (EBin Lt (EV "j") (EI 3)) (SStore (EV "stress_gp") (EV "i") (EBin Add (EIdx (EV "stress_gp") (EV "i")) (EBin Mul (EIdx2 3 (EV "ctan") (EV "i") (EV "j")) (EIdx (EV "strain_gp") (EV "j"))))))]))]).

(** src/assembly.cpp:963-970 *)
Definition ast_get_dev_tensor : fdef := mkFun ["this"; "tensor"; "tensor_dev"]
 (block [(SFor "i" (EI 0) (EBin Lt (EV "i") (EI 6)) (SStore (EV "tensor_dev") (EV "i") (EIdx (EV "tensor") (EV "i"))));
 (SFor "i" (EI 0) (EBin Lt (EV "i") (EI 3)) (SStore (EV "tensor_dev") (EV "i") (EBin Sub (EIdx (EV "tensor_dev") (EV "i")) (EBin Mul (EBin Div (EI 1) (EDbl (EI 3))) (EBin Add (EBin Add (EIdx (EV "tensor") (EI 0)) (EIdx (EV "tensor") (EI 1))) (EIdx (EV "tensor") (EI 2)))))))]).

(** src/assembly.cpp:972-1005 *)
Definition ast_get_stress3D : fdef := mkFun ["this"; "ex"; "ey"; "ez"; "gp"; "eps"; "non_linear"; "stress_gp"]
 (block [(SStore (EV "non_linear") (EI 0) (EI 0));
 (SMalloc "ctan" TDbl (EI 36));
 (SSet "e" (EBin Add (EBin Add (EBin Mul (EBin Mul (EV "ez") (EBin Sub (EFld (EV "this") "nx") (EI 1))) (EBin Sub (EFld (EV "this") "ny") (EI 1))) (EBin Mul (EV "ey") (EBin Sub (EFld (EV "this") "nx") (EI 1)))) (EV "ex")));
 (SStruct "material" ["E"; "nu"; "k"; "mu"; "lambda"; "Ka"; "Sy"; "plasticity"; "damage"]);
 (SCall "get_material" [(EV "this"); (EV "e"); (EV "material")]);
 (SIf (EBin Eq (EFld (EV "material") "plasticity") (EI 1)) (block [(SMalloc "alpha_new" TDbl (EI 1));
 (SMalloc "eps_p_old" TDbl (EI 6));
 (SMalloc "eps_p_new" TDbl (EI 6));
 (SFor "i" (EI 0) (EBin Lt (EV "i") (EI 6)) (SStore (EV "eps_p_old") (EV "i") (EIdx (EFld (EV "this") "vars_old") (EBin Add (EBin Add (EBin Mul (EBin Mul (EV "e") (EI 8)) (EI 7)) (EBin Mul (EV "gp") (EI 7))) (EV "i")))));
 (SSet "alpha_old" (EIdx (EFld (EV "this") "vars_old") (EBin Add (EBin Add (EBin Mul (EBin Mul (EV "e") (EI 8)) (EI 7)) (EBin Mul (EV "gp") (EI 7))) (EI 6))));
 (SCall "plastic_step" [(EV "this"); (EV "material"); (EV "eps"); (EV "eps_p_old"); (EV "alpha_old"); (EV "eps_p_new"); (EV "alpha_new"); (EV "non_linear"); (EV "stress_gp")]);
 (SFor "i" (EI 0) (EBin Lt (EV "i") (EI 6)) (SStore (EFld (EV "this") "vars_new") (EBin Add (EBin Add (EBin Mul (EBin Mul (EV "e") (EI 8)) (EI 7)) (EBin Mul (EV "gp") (EI 7))) (EV "i")) (EIdx (EV "eps_p_new") (EV "i"))));
 (SStore (EFld (EV "this") "vars_new") (EBin Add (EBin Add (EBin Mul (EBin Mul (EV "e") (EI 8)) (EI 7)) (EBin Mul (EV "gp") (EI 7))) (EI 6)) (EIdx (EV "alpha_new") (EI 0)))]) (block [(SFor "i" (EI 0) (EBin Lt (EV "i") (EI 3)) (block [(SStore (EV "stress_gp") (EV "i") (EBin Mul (EFld (EV "material") "lambda") (EBin Add (EBin Add (EIdx (EV "eps") (EI 0)) (EIdx (EV "eps") (EI 1))) (EIdx (EV "eps") (EI 2)))));
 (SStore (EV "stress_gp") (EV "i") (EBin Add (EIdx (EV "stress_gp") (EV "i")) (EBin Mul (EBin Mul (EI 2) (EFld (EV "material") "mu")) (EIdx (EV "eps") (EV "i")))))]));
 (SFor "i" (EI 3) (EBin Lt (EV "i") (EI 6)) (SStore (EV "stress_gp") (EV "i") (EBin Mul (EFld (EV "material") "mu") (EIdx (EV "eps") (EV "i")))))]))]).

(** src/assembly.cpp:1007-1062 *)
Definition ast_plastic_step : fdef := mkFun ["this"; "material"; "eps"; "eps_p_old"; "alpha_old"; "eps_p_new"; "alpha_new"; "non_linear"; "stress"]
 (block [(SMalloc "eps_dev" TDbl (EI 6));
 (SMalloc "eps_p_dev_1" TDbl (EI 6));
 (SMalloc "normal" TDbl (EI 6));
 (SStore (EV "normal") (EI 0) (EDbl (EI 0)));
 (SStore (EV "normal") (EI 1) (EDbl (EI 0)));
 (SStore (EV "normal") (EI 2) (EDbl (EI 0)));
 (SStore (EV "normal") (EI 3) (EDbl (EI 0)));
 (SStore (EV "normal") (EI 4) (EDbl (EI 0)));
 (SStore (EV "normal") (EI 5) (EDbl (EI 0)));
 (SSet "dl" (EDbl (EI 0)));
 (SMalloc "sig_dev_trial" TDbl (EI 6));
 (SCall "get_dev_tensor" [(EV "this"); (EV "eps_p_old"); (EV "eps_p_dev_1")]);
 (SCall "get_dev_tensor" [(EV "this"); (EV "eps"); (EV "eps_dev")]);
 (SFor "i" (EI 0) (EBin Lt (EV "i") (EI 3)) (SStore (EV "sig_dev_trial") (EV "i") (EBin Mul (EBin Mul (EI 2) (EFld (EV "material") "mu")) (EBin Sub (EIdx (EV "eps_dev") (EV "i")) (EIdx (EV "eps_p_dev_1") (EV "i"))))));
 (SFor "i" (EI 3) (EBin Lt (EV "i") (EI 6)) (SStore (EV "sig_dev_trial") (EV "i") (EBin Mul (EFld (EV "material") "mu") (EBin Sub (EIdx (EV "eps_dev") (EV "i")) (EIdx (EV "eps_p_dev_1") (EV "i"))))));
 (SSet "sig_dev_trial_norm" (ESqrt (EBin Add (EBin Add (EBin Add (EBin Add (EBin Add (EBin Mul (EIdx (EV "sig_dev_trial") (EI 0)) (EIdx (EV "sig_dev_trial") (EI 0))) (EBin Mul (EIdx (EV "sig_dev_trial") (EI 1)) (EIdx (EV "sig_dev_trial") (EI 1)))) (EBin Mul (EIdx (EV "sig_dev_trial") (EI 2)) (EIdx (EV "sig_dev_trial") (EI 2)))) (EBin Mul (EBin Mul (EI 2) (EIdx (EV "sig_dev_trial") (EI 3))) (EIdx (EV "sig_dev_trial") (EI 3)))) (EBin Mul (EBin Mul (EI 2) (EIdx (EV "sig_dev_trial") (EI 4))) (EIdx (EV "sig_dev_trial") (EI 4)))) (EBin Mul (EBin Mul (EI 2) (EIdx (EV "sig_dev_trial") (EI 5))) (EIdx (EV "sig_dev_trial") (EI 5))))));
 (SSet "f_trial" (EBin Sub (EV "sig_dev_trial_norm") (EBin Mul (ESqrt (EBin Div (EDbl (EI 2)) (EI 3))) (EBin Add (EFld (EV "material") "Sy") (EBin Mul (EFld (EV "material") "Ka") (EV "alpha_old"))))));
 (SIf (EBin Gt (EV "f_trial") (EI 0)) (block [(SStore (EV "non_linear") (EI 0) (EI 1));
 (SFor "i" (EI 0) (EBin Lt (EV "i") (EI 6)) (SStore (EV "normal") (EV "i") (EBin Div (EIdx (EV "sig_dev_trial") (EV "i")) (EV "sig_dev_trial_norm"))));
 (SSet "dl" (EBin Div (EV "f_trial") (EBin Mul (EBin Mul (EI 2) (EFld (EV "material") "mu")) (EBin Add (EDbl (EI 1)) (EBin Div (EBin Mul (EDbl (EI 0)) (EFld (EV "material") "Ka")) (EBin Mul (EI 3) (EFld (EV "material") "mu")))))));
 (SFor "i" (EI 0) (EBin Lt (EV "i") (EI 6)) (SStore (EV "eps_p_new") (EV "i") (EBin Add (EIdx (EV "eps_p_old") (EV "i")) (EBin Mul (EV "dl") (EIdx (EV "normal") (EV "i"))))));
 (SStore (EV "alpha_new") (EI 0) (EBin Add (EV "alpha_old") (EBin Mul (ESqrt (EBin Div (EDbl (EI 2)) (EI 3))) (EV "dl"))))]) (block [(SFor "i" (EI 0) (EBin Lt (EV "i") (EI 6)) (SStore (EV "eps_p_new") (EV "i") (EIdx (EV "eps_p_old") (EV "i"))));
 (SStore (EV "alpha_new") (EI 0) (EV "alpha_old"))]));
 (SFor "i" (EI 0) (EBin Lt (EV "i") (EI 6)) (SStore (EV "stress") (EV "i") (EIdx (EV "sig_dev_trial") (EV "i"))));
 (SFor "i" (EI 0) (EBin Lt (EV "i") (EI 3)) (SStore (EV "stress") (EV "i") (EBin Add (EIdx (EV "stress") (EV "i")) (EBin Mul (EFld (EV "material") "k") (EBin Add (EBin Add (EIdx (EV "eps") (EI 0)) (EIdx (EV "eps") (EI 1))) (EIdx (EV "eps") (EI 2)))))));
 (SFor "i" (EI 0) (EBin Lt (EV "i") (EI 6)) (SStore (EV "stress") (EV "i") (EBin Sub (EIdx (EV "stress") (EV "i")) (EBin Mul (EBin Mul (EBin Mul (EI 2) (EFld (EV "material") "mu")) (EV "dl")) (EIdx (EV "normal") (EV "i"))))))]).

(** src/assembly.cpp:1064-1087 *)
Definition ast_get_material : fdef := mkFun ["this"; "e"; "material"]
 (block [(SIf (EBin Eq (EFld (EV "this") "micro_type") (EI 0)) (SIf (EBin Eq (EIdx (EFld (EV "this") "elem_type") (EV "e")) (EI 0)) (SSet "mat_num" (EI 0)) (SSet "mat_num" (EI 1))) (SIf (EBin Eq (EFld (EV "this") "micro_type") (EI 1)) (SIf (EBin Eq (EIdx (EFld (EV "this") "elem_type") (EV "e")) (EI 0)) (SSet "mat_num" (EI 0)) (SSet "mat_num" (EI 1))) SSkip));
 (SFld (EV "material") "E" (EElt (EFld (EV "this") "material_list") (EV "mat_num") "E"));
 (SFld (EV "material") "nu" (EElt (EFld (EV "this") "material_list") (EV "mat_num") "nu"));
 (SFld (EV "material") "Sy" (EElt (EFld (EV "this") "material_list") (EV "mat_num") "Sy"));
 (SFld (EV "material") "Ka" (EElt (EFld (EV "this") "material_list") (EV "mat_num") "Ka"));
 (SFld (EV "material") "mu" (EElt (EFld (EV "this") "material_list") (EV "mat_num") "mu"));
 (SFld (EV "material") "k" (EElt (EFld (EV "this") "material_list") (EV "mat_num") "k"));
 (SFld (EV "material") "lambda" (EElt (EFld (EV "this") "material_list") (EV "mat_num") "lambda"));
 (SFld (EV "material") "plasticity" (EElt (EFld (EV "this") "material_list") (EV "mat_num") "plasticity"))]).

(** src/assembly.cpp:1089-1127 *)
Definition ast_get_strain2D : fdef := mkFun ["this"; "ex"; "ey"; "gp"; "strain_gp"]
 (block [(SMalloc "elem_disp" TDbl (EI 8));
 (SCall "getElemDisp2" [(EV "this"); (EV "ex"); (EV "ey"); (EV "elem_disp")]);
 (SMalloc "xg" TDbl (EI 8));
 (SStore (EV "xg") (EI 0) (ENeg (EDec 577350269189626 15)));
 (SStore (EV "xg") (EI 1) (ENeg (EDec 577350269189626 15)));
 (SStore (EV "xg") (EI 2) (EDec 577350269189626 15));
 (SStore (EV "xg") (EI 3) (ENeg (EDec 577350269189626 15)));
 (SStore (EV "xg") (EI 4) (EDec 577350269189626 15));
 (SStore (EV "xg") (EI 5) (EDec 577350269189626 15));
 (SStore (EV "xg") (EI 6) (ENeg (EDec 577350269189626 15)));
 (SStore (EV "xg") (EI 7) (EDec 577350269189626 15));
 (SMalloc "dsh" TDbl (EI 8));
 (SMalloc "bmat" TDbl (EI 24));
 (SMalloc "cxb" TDbl (EI 24));
 (SStore (EV "dsh") (EIx2 2 (EI 0) (EI 0)) (EBin Div (EBin Mul (EBin Div (ENeg (EBin Sub (EI 1) (EIdx2 2 (EV "xg") (EV "gp") (EI 1)))) (EI 4)) (EI 2)) (EFld (EV "this") "dx")));
 (SStore (EV "dsh") (EIx2 2 (EI 0) (EI 1)) (EBin Div (EBin Mul (EBin Div (ENeg (EBin Sub (EI 1) (EIdx2 2 (EV "xg") (EV "gp") (EI 0)))) (EI 4)) (EI 2)) (EFld (EV "this") "dy")));
 (SStore (EV "dsh") (EIx2 2 (EI 1) (EI 0)) (EBin Div (EBin Mul (EBin Div (EBin Sub (EI 1) (EIdx2 2 (EV "xg") (EV "gp") (EI 1))) (EI 4)) (EI 2)) (EFld (EV "this") "dx")));
 (SStore (EV "dsh") (EIx2 2 (EI 1) (EI 1)) (EBin Div (EBin Mul (EBin Div (ENeg (EBin Add (EI 1) (EIdx2 2 (EV "xg") (EV "gp") (EI 0)))) (EI 4)) (EI 2)) (EFld (EV "this") "dy")));
 (SStore (EV "dsh") (EIx2 2 (EI 2) (EI 0)) (EBin Div (EBin Mul (EBin Div (EBin Add (EI 1) (EIdx2 2 (EV "xg") (EV "gp") (EI 1))) (EI 4)) (EI 2)) (EFld (EV "this") "dx")));
 (SStore (EV "dsh") (EIx2 2 (EI 2) (EI 1)) (EBin Div (EBin Mul (EBin Div (EBin Add (EI 1) (EIdx2 2 (EV "xg") (EV "gp") (EI 0))) (EI 4)) (EI 2)) (EFld (EV "this") "dy")));
 (SStore (EV "dsh") (EIx2 2 (EI 3) (EI 0)) (EBin Div (EBin Mul (EBin Div (ENeg (EBin Add (EI 1) (EIdx2 2 (EV "xg") (EV "gp") (EI 1)))) (EI 4)) (EI 2)) (EFld (EV "this") "dx")));
 (SStore (EV "dsh") (EIx2 2 (EI 3) (EI 1)) (EBin Div (EBin Mul (EBin Div (EBin Sub (EI 1) (EIdx2 2 (EV "xg") (EV "gp") (EI 0))) (EI 4)) (EI 2)) (EFld (EV "this") "dy")));
 (SFor "i" (EI 0) (EBin Lt (EV "i") (EI 4)) (block [(SStore (EV "bmat") (EIx2 8 (EI 0) (EBin Mul (EV "i") (EFld (EV "this") "dim"))) (EIdx2 2 (EV "dsh") (EV "i") (EI 0)));
 (SStore (EV "bmat") (EIx2 8 (EI 0) (EBin Add (EBin Mul (EV "i") (EFld (EV "this") "dim")) (EI 1))) (EI 0));
 (SStore (EV "bmat") (EIx2 8 (EI 1) (EBin Mul (EV "i") (EFld (EV "this") "dim"))) (EI 0));
 (SStore (EV "bmat") (EIx2 8 (EI 1) (EBin Add (EBin Mul (EV "i") (EFld (EV "this") "dim")) (EI 1))) (EIdx2 2 (EV "dsh") (EV "i") (EI 1)));
 (SStore (EV "bmat") (EIx2 8 (EI 2) (EBin Mul (EV "i") (EFld (EV "this") "dim"))) (EIdx2 2 (EV "dsh") (EV "i") (EI 1)));
 (SStore (EV "bmat") (EIx2 8 (EI 2) (EBin Add (EBin Mul (EV "i") (EFld (EV "this") "dim")) (EI 1))) (EIdx2 2 (EV "dsh") (EV "i") (EI 0)))]));
 (SFor "v" (EI 0) (EBin Lt (EV "v") (EFld (EV "this") "nvoi")) (block [(SStore (EV "strain_gp") (EV "v") (EDbl (EI 0)));
 (SFor "i" (EI 0) (EBin Lt (EV "i") (EBin Mul (EFld (EV "this") "npe") (EFld (EV "this") "dim"))) (SStore (EV "strain_gp") (EV "v") (EBin Add (EIdx (EV "strain_gp") (EV "v")) (EBin Mul (EIdx2 8 (EV "bmat") (EV "v") (EV "i")) (EIdx (EV "elem_disp") (EV "i"))))))]))]).

(** src/assembly.cpp:1129-1144 *)
Definition ast_get_strain3D : fdef := mkFun ["this"; "ex"; "ey"; "ez"; "gp"; "strain_gp"]
 (block [(SMalloc "elem_disp" TDbl (EI 24));
 (SCall "getElemDisp3" [(EV "this"); (EV "ex"); (EV "ey"); (EV "ez"); (EV "elem_disp")]);
 (SMalloc "bmat" TDbl (EI 144));
 (SCall "calc_bmat_3D" [(EV "this"); (EV "gp"); (EV "bmat")]);
 (SFor "v" (EI 0) (EBin Lt (EV "v") (EFld (EV "this") "nvoi")) (block [(SStore (EV "strain_gp") (EV "v") (EDbl (EI 0)));
 (SFor "i" (EI 0) (EBin Lt (EV "i") (EBin Mul (EFld (EV "this") "npe") (EFld (EV "this") "dim"))) (SStore (EV "strain_gp") (EV "v") (EBin Add (EIdx (EV "strain_gp") (EV "v")) (EBin Mul (EIdx2 24 (EV "bmat") (EV "v") (EV "i")) (EIdx (EV "elem_disp") (EV "i"))))))]))]).

(** src/assembly.cpp:1146-1159 *)
Definition ast_getElemDisp2 : fdef := mkFun ["this"; "ex"; "ey"; "elem_disp"]
 (block [(SSet "n0" (EBin Add (EBin Mul (EV "ey") (EFld (EV "this") "nx")) (EV "ex")));
 (SSet "n1" (EBin Add (EBin Add (EBin Mul (EV "ey") (EFld (EV "this") "nx")) (EV "ex")) (EI 1)));
 (SSet "n2" (EBin Add (EBin Add (EBin Mul (EBin Add (EV "ey") (EI 1)) (EFld (EV "this") "nx")) (EV "ex")) (EI 1)));
 (SSet "n3" (EBin Add (EBin Mul (EBin Add (EV "ey") (EI 1)) (EFld (EV "this") "nx")) (EV "ex")));
 (SFor "d" (EI 0) (EBin Lt (EV "d") (EFld (EV "this") "dim")) (block [(SStore (EV "elem_disp") (EBin Add (EBin Mul (EI 0) (EFld (EV "this") "dim")) (EV "d")) (EIdx (EFld (EV "this") "u") (EBin Add (EBin Mul (EV "n0") (EFld (EV "this") "dim")) (EV "d"))));
 (SStore (EV "elem_disp") (EBin Add (EBin Mul (EI 1) (EFld (EV "this") "dim")) (EV "d")) (EIdx (EFld (EV "this") "u") (EBin Add (EBin Mul (EV "n1") (EFld (EV "this") "dim")) (EV "d"))));
 (SStore (EV "elem_disp") (EBin Add (EBin Mul (EI 2) (EFld (EV "this") "dim")) (EV "d")) (EIdx (EFld (EV "this") "u") (EBin Add (EBin Mul (EV "n2") (EFld (EV "this") "dim")) (EV "d"))));
 (SStore (EV "elem_disp") (EBin Add (EBin Mul (EI 3) (EFld (EV "this") "dim")) (EV "d")) (EIdx (EFld (EV "this") "u") (EBin Add (EBin Mul (EV "n3") (EFld (EV "this") "dim")) (EV "d"))))]))]).

(** src/assembly.cpp:1161-1182 *)
Definition ast_getElemDisp3 : fdef := mkFun ["this"; "ex"; "ey"; "ez"; "elem_disp"]
 (block [(SSet "n0" (EBin Add (EBin Add (EBin Mul (EV "ez") (EBin Mul (EFld (EV "this") "nx") (EFld (EV "this") "ny"))) (EBin Mul (EV "ey") (EFld (EV "this") "nx"))) (EV "ex")));
 (SSet "n1" (EBin Add (EBin Add (EBin Add (EBin Mul (EV "ez") (EBin Mul (EFld (EV "this") "nx") (EFld (EV "this") "ny"))) (EBin Mul (EV "ey") (EFld (EV "this") "nx"))) (EV "ex")) (EI 1)));
 (SSet "n2" (EBin Add (EBin Add (EBin Add (EBin Mul (EV "ez") (EBin Mul (EFld (EV "this") "nx") (EFld (EV "this") "ny"))) (EBin Mul (EBin Add (EV "ey") (EI 1)) (EFld (EV "this") "nx"))) (EV "ex")) (EI 1)));
 (SSet "n3" (EBin Add (EBin Add (EBin Mul (EV "ez") (EBin Mul (EFld (EV "this") "nx") (EFld (EV "this") "ny"))) (EBin Mul (EBin Add (EV "ey") (EI 1)) (EFld (EV "this") "nx"))) (EV "ex")));
 (SSet "n4" (EBin Add (EV "n0") (EBin Mul (EFld (EV "this") "nx") (EFld (EV "this") "ny"))));
 (SSet "n5" (EBin Add (EV "n1") (EBin Mul (EFld (EV "this") "nx") (EFld (EV "this") "ny"))));
 (SSet "n6" (EBin Add (EV "n2") (EBin Mul (EFld (EV "this") "nx") (EFld (EV "this") "ny"))));
 (SSet "n7" (EBin Add (EV "n3") (EBin Mul (EFld (EV "this") "nx") (EFld (EV "this") "ny"))));
 (SFor "d" (EI 0) (EBin Lt (EV "d") (EFld (EV "this") "dim")) (block [(SStore (EV "elem_disp") (EBin Add (EBin Mul (EI 0) (EFld (EV "this") "dim")) (EV "d")) (EIdx (EFld (EV "this") "u") (EBin Add (EBin Mul (EV "n0") (EFld (EV "this") "dim")) (EV "d"))));
 (SStore (EV "elem_disp") (EBin Add (EBin Mul (EI 1) (EFld (EV "this") "dim")) (EV "d")) (EIdx (EFld (EV "this") "u") (EBin Add (EBin Mul (EV "n1") (EFld (EV "this") "dim")) (EV "d"))));
 (SStore (EV "elem_disp") (EBin Add (EBin Mul (EI 2) (EFld (EV "this") "dim")) (EV "d")) (EIdx (EFld (EV "this") "u") (EBin Add (EBin Mul (EV "n2") (EFld (EV "this") "dim")) (EV "d"))));
 (SStore (EV "elem_disp") (EBin Add (EBin Mul (EI 3) (EFld (EV "this") "dim")) (EV "d")) (EIdx (EFld (EV "this") "u") (EBin Add (EBin Mul (EV "n3") (EFld (EV "this") "dim")) (EV "d"))));
 (SStore (EV "elem_disp") (EBin Add (EBin Mul (EI 4) (EFld (EV "this") "dim")) (EV "d")) (EIdx (EFld (EV "this") "u") (EBin Add (EBin Mul (EV "n4") (EFld (EV "this") "dim")) (EV "d"))));
 (SStore (EV "elem_disp") (EBin Add (EBin Mul (EI 5) (EFld (EV "this") "dim")) (EV "d")) (EIdx (EFld (EV "this") "u") (EBin Add (EBin Mul (EV "n5") (EFld (EV "this") "dim")) (EV "d"))));
 (SStore (EV "elem_disp") (EBin Add (EBin Mul (EI 6) (EFld (EV "this") "dim")) (EV "d")) (EIdx (EFld (EV "this") "u") (EBin Add (EBin Mul (EV "n6") (EFld (EV "this") "dim")) (EV "d"))));
 (SStore (EV "elem_disp") (EBin Add (EBin Mul (EI 7) (EFld (EV "this") "dim")) (EV "d")) (EIdx (EFld (EV "this") "u") (EBin Add (EBin Mul (EV "n7") (EFld (EV "this") "dim")) (EV "d"))))]))]).

(** src/solve.cpp:32-44 *)
Definition ast_solve : fdef := mkFun ["this"]
 (block [(SStruct "solver" ["max_its"; "its"; "min_tol"; "err"]);
 (SFld (EV "solver") "max_its" (EI 2000));
 (SFld (EV "solver") "min_tol" (EDec 1 8));
 (SIf (EBin Eq (EFld (EV "this") "dim") (EI 2)) (SCall "ell_solve_cgpd_2D" [(EV "solver"); (EFld (EV "this") "A"); (EFld (EV "this") "dim"); (EFld (EV "this") "nx"); (EFld (EV "this") "ny"); (EFld (EV "this") "b"); (EFld (EV "this") "du")]) (SIf (EBin Eq (EFld (EV "this") "dim") (EI 3)) (SCall "ell_solve_cgpd_struct" [(EV "solver"); (EFld (EV "this") "A"); (EFld (EV "this") "dim"); (EFld (EV "this") "dim"); (EFld (EV "this") "nn"); (EFld (EV "this") "b"); (EFld (EV "this") "du")]) SSkip))]).

(** src/solve.cpp:46-66 *)
Definition ast_newton_raphson : fdef := mkFun ["this"; "nl_flag"; "its"; "err"]
 (block [(SStore (EV "its") (EI 0) (EI 0));
 (SStore (EV "err") (EI 0) (EDbl (EI 0)));
 (SDo (block [(SCallR "ret" "assembly_rhs" [(EV "this"); (EV "nl_flag")]);
 (SStore (EV "err") (EI 0) (EV "ret"));
 (SIf (EBin Lt (EIdx (EV "err") (EI 0)) (EDec 1 5)) SBreak SSkip);
 (SCall "assembly_mat" [(EV "this")]);
 (SFor "i" (EI 0) (EBin Lt (EV "i") (EBin Mul (EFld (EV "this") "nn") (EFld (EV "this") "dim"))) (SStore (EFld (EV "this") "du") (EV "i") (EDbl (EI 0))));
 (SCall "solve" [(EV "this")]);
 (SFor "i" (EI 0) (EBin Lt (EV "i") (EBin Mul (EFld (EV "this") "nn") (EFld (EV "this") "dim"))) (SStore (EFld (EV "this") "u") (EV "i") (EBin Add (EIdx (EFld (EV "this") "u") (EV "i")) (EIdx (EFld (EV "this") "du") (EV "i")))));
 (SSet "its" (EAdr (EV "its") (EI 1)))]) (EAnd (EBin Lt (EIdx (EV "its") (EI 0)) (EI 40)) (EBin Gt (EIdx (EV "err") (EI 0)) (EDec 1 5))))]).

(** the functions by name, with those of ell.cpp *)
Definition asm_prog (f : string) : option fdef :=
  if String.eqb f "set_displ" then Some ast_set_displ else
  if String.eqb f "assembly_rhs" then Some ast_assembly_rhs else
  if String.eqb f "assembly_mat" then Some ast_assembly_mat else
  if String.eqb f "get_elem_mat2D" then Some ast_get_elem_mat2D else
  if String.eqb f "get_elem_mat3D" then Some ast_get_elem_mat3D else
  if String.eqb f "get_ctan_plast_sec" then Some ast_get_ctan_plast_sec else
  if String.eqb f "get_ctan_plast_exact" then Some ast_get_ctan_plast_exact else
  if String.eqb f "get_ctan_plast_pert" then Some ast_get_ctan_plast_pert else
  if String.eqb f "calc_bmat_3D" then Some ast_calc_bmat_3D else
  if String.eqb f "get_elem_rhs2D" then Some ast_get_elem_rhs2D else
  if String.eqb f "get_elem_rhs3D" then Some ast_get_elem_rhs3D else
  if String.eqb f "calc_ave_stress" then Some ast_calc_ave_stress else
  if String.eqb f "calc_ave_strain" then Some ast_calc_ave_strain else
  if String.eqb f "calc_fields" then Some ast_calc_fields else
  if String.eqb f "get_stress2D" then Some ast_get_stress2D else
  if String.eqb f "get_dev_tensor" then Some ast_get_dev_tensor else
  if String.eqb f "get_stress3D" then Some ast_get_stress3D else
  if String.eqb f "plastic_step" then Some ast_plastic_step else
  if String.eqb f "get_material" then Some ast_get_material else
  if String.eqb f "get_strain2D" then Some ast_get_strain2D else
  if String.eqb f "get_strain3D" then Some ast_get_strain3D else
  if String.eqb f "getElemDisp2" then Some ast_getElemDisp2 else
  if String.eqb f "getElemDisp3" then Some ast_getElemDisp3 else
  if String.eqb f "solve" then Some ast_solve else
  if String.eqb f "newton_raphson" then Some ast_newton_raphson else
  ell_prog f.
