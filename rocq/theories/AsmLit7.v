(** The syntax trees of src/assembly.cpp against the model: get_elem_mat3D. *)
From Coq Require Import String.
From Verif Require Import Base Scalar Clite CliteRules EllAst AsmAst Sym SymStep Grid EllModel AssemblyModel
  AsmLit AsmLit2 AsmLit3 AsmLit4 AsmLit5 AsmLit6.
Local Open Scope string_scope.
Local Open Scope Z_scope.

Section Asm.
Context {T : Type} `{OT : Ops T}.
Notation val := (@val T). Notation obj := (@obj T). Notation obj1 := (@obj1 T).
Notation fields := (list (string * option val)).

Definition pre6m (V : env T) (ty : Z) (fs : fields) l2 z ml vold vnew u : list (option obj1) :=
  [Some (R1 fs (this_flds 3 ty V (ptr 1) (ptr 2) (ptr 3) (ptr 4) (ptr 5) None None None None None));
   Some (K1 (v_etype V) z); Some (V1 l2 ml); Some (Opq vold); Some (Opq vnew); Some (Opq u)].
Definition mat_out (m : material T) (p : bool) : fields :=
  [("E", Some (VD (m_E m))); ("nu", Some (VD (m_nu m))); ("k", Some (VD (m_k m)));
   ("mu", Some (VD (m_mu m))); ("lambda", Some (VD (m_lambda m))); ("Ka", Some (VD (m_Ka m)));
   ("Sy", Some (VD (m_Sy m))); ("plasticity", Some (VI (if p then 1 else 0))); ("damage", None)].
(** the statements of get_elem_mat3D *)
Fixpoint unblock (n : nat) (c : stmt) : list stmt :=
  match n, c with
  | S n, SSeq a b => a :: unblock n b
  | _, _ => [c]
  end.
Definition mat_list : list stmt := Eval cbv in unblock 5 (f_body ast_get_elem_mat3D).
Definition mat_for : stmt := nth 5 mat_list SSkip.
Definition for_body (c : stmt) : stmt := match c with SSeq _ (SWhile _ b _) => b | _ => SSkip end.
Definition mat_body : list stmt := Eval cbv in unblock 6 (for_body (nth 5 mat_list SSkip)).

Section Gen.
Variable V : env T.
Variable Wt : fields -> Prop.
Variable W : fields -> fields -> arr Z -> list fields -> Prop.
Variable B : Z -> Z -> Z -> T.
Variable gct : arr T -> arr T -> arr T -> Z -> Z -> Z -> Z -> res ((Z -> Z -> T) * arr T).
Definition SM3 : string -> option (@summary T) := fun f =>
  if String.eqb f "calc_bmat_3D" then Some (sm_bmatg Wt B)
  else if String.eqb f "get_ctan_plast_pert" then Some (sm_ctan W gct) else None.

Variables (u vold : arr T) (ex ey ez : Z).
Definition mt_env (gp : Z) : list (string * val) :=
  [("this", VP 0 0); ("ex", VI ex); ("ey", VI ey); ("ez", VI ez); ("Ae", VP 6 0); ("material", VP 7 0); ("ctan", VP 8 0); ("gp", VI gp)].
Definition mt_names : list string := ["this"; "ex"; "ey"; "ez"; "Ae"; "material"; "ctan"; "gp"].
Variables (fs : fields) (l2 : list fields) (m : material T) (p : bool).
Definition mt_mem (vn : arr T) (Ae ct : list (option T)) : list (option obj1) :=
  (pre6 V fs l2 vold vn u ++ [Some (D1 Ae); Some (S1 (mat_out m p)); Some (D1 ct)])%list.
Definition cc (c : Z -> Z -> T) (q : Z) : T := c (q / 6) (q mod 6).

(** the accumulation at one Gauss point *)
Lemma mt_acc (c : Z -> Z -> T) gp vn Ae :
  cut3 9 mt_names (out3 (execs1 asm_prog SM3 100 (tl mat_body)
    (mk1 (mt_env gp) (mt_mem vn (fc 576 (lget Ae)) (fc 36 (cc c)))) [])) =
  Some (mk1 (mt_env gp) (mt_mem vn (fc 576 (lget (add_mat 6 24 (B gp) c (wg3 V) Ae))) (fc 36 (cc c))),
        [0 <= gp < 8; Wt fs]).
Proof. vmr. Qed.

(** the tangent of a linear material *)
Lemma mt_lin gp vn Ae : p = false ->
  cut3 9 mt_names (out3 (execs1 asm_prog SM3 100 [hd SSkip mat_body]
    (mk1 (mt_env gp) (mt_mem vn (fc 576 (lget Ae)) (nc 36))) [])) =
  Some (mk1 (mt_env gp) (mt_mem vn (fc 576 (lget Ae)) (fc 36 (cc (ctan3 (m_lambda m) (m_mu m))))), []).
Proof. intros P. unfold mt_mem, mat_out. rewrite P. vmr. Qed.
(** and of a plastic one *)
Lemma mt_pl gp vn Ae : p = true -> let r := gct u vold vn ex ey ez gp in
  cut3 9 mt_names (out3 (execs1 asm_prog SM3 100 [hd SSkip mat_body]
    (mk1 (mt_env gp) (mt_mem vn (fc 576 (lget Ae)) (nc 36))) [])) =
  Some (mk1 (mt_env gp) (mt_mem (g_cv vn r) (fc 576 (lget Ae)) (fc 36 (cc (g_c r)))),
    [0 <= gp < 8; W fs (this_flds 3 (v_type V) V (ptr 1) (ptr 2) (ptr 3) (ptr 4) (ptr 5) None None None None None)
                     (v_etype V) l2; r = Ok (g_c r, g_cv vn r)]).
Proof. intros P. cbv zeta. unfold mt_mem, mat_out. rewrite P. vmr. Qed.
(** before the loop *)
Definition mt_env0 : list (string * val) :=
  [("this", VP 0 0); ("ex", VI ex); ("ey", VI ey); ("ez", VI ez); ("Ae", VP 6 0)].
Definition mt_env1 (e : Z) : list (string * val) :=
  (mt_env0 ++ [("e", VI e); ("material", VP 7 0); ("ctan", VP 8 0); ("i", VI 576)])%list.
Lemma mt_pre ty z vn : ty = 0 \/ ty = 1 ->
  let e := glo_elem3D (v_nx V) (v_ny V) ex ey ez in
  let pre := pre6m V ty fs l2 z (matl z (mat_flds m (Some p))) vold vn u in
  out3 (execs1 asm_prog SM3 700 (removelast mat_list) (mk1 mt_env0 (pre ++ [Some (D1 (nc 576))])%list) []) =
  Some (mk1 (mt_env1 e) (pre ++ [Some (D1 (fc 576 (lget (zeros 576)))); Some (S1 (mat_out m p)); Some (D1 (nc 36))])%list,
    [rd (v_etype V) e = Ok z]).
Proof. intros [-> | ->]; cbv zeta; destruct z; vmr. Qed.
End Gen.
End Asm.
