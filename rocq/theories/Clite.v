(** A small imperative language with the semantics of the C++ used in /repo/src, so that
    functions of the source can be represented as syntax trees and run.  The trees are
    produced from the source text by tools/gen_ast.py (EllAst.v) and tools/gen_ast_asm.py
    (AsmAst.v); here are the language and its meaning.

    Modelled: local variables (one frame per call), int and double values with the implicit
    conversion from int to double, pointers with an offset, NULL, struct fields, malloc'd
    arrays, uninitialised and freed memory, if / while / do / for, break, return, calls.
    Simplifications: int arithmetic is over Z (the 32-bit range is the subject of C60 and
    C73); sizeof is removed, so malloc counts elements; local arrays stay allocated after
    the function returns. *)
From Coq Require Import String.
From Verif Require Import Base Scalar.
Local Open Scope string_scope.
Local Open Scope Z_scope.

(** operators of e.g. src/ell.cpp:54, 65, 88, 104 *)
Inductive binop := Add | Sub | Mul | Div | Mod | Lt | Le | Gt | Ge | Eq | Ne.

(** expressions, e.g. of src/ell.cpp:54: m->vals[(i * m->nnz) + j] * x[m->cols[...]] *)
Inductive exp :=
| EI (z : Z)                    (* an integer literal *)
| EDec (m e : Z)                (* a decimal literal m * 10^-e *)
| EV (x : string)               (* a variable *)
| ENull                         (* NULL *)
| EFld (p : exp) (f : string)   (* p->f *)
| EIdx (p i : exp)              (* p[i] *)
| EIdx2 (w : Z) (p i j : exp)   (* p[i][j] of an array with rows of w elements *)
| EIx2 (w : Z) (i j : exp)      (* the position i, j of an array with rows of w elements *)
| EElt (p i : exp) (f : string) (* p[i].f of an array of structs *)
| EAdr (p i : exp)              (* &(p[i]) *)
| EBin (o : binop) (a b : exp)
| ENeg (a : exp)
| EAnd (a b : exp) | EOr (a b : exp)
| ESqrt (a : exp) | EFabs (a : exp)
| EDbl (a : exp).               (* conversion of an initialiser or right-hand side to double *)

(** element types of malloc, e.g. src/ell.cpp:134 and 716 *)
Inductive ety := TInt | TDbl.

(** statements, e.g. of src/ell.cpp:48-205 *)
Inductive stmt :=
| SSkip
| SSeq (a b : stmt)
| SSet (x : string) (e : exp)           (* x = e; also a declaration with initialiser *)
| SStore (p i e : exp)                  (* p[i] = e *)
| SFld (p : exp) (f : string) (e : exp) (* p->f = e *)
| SIf (c : exp) (a b : stmt)
| SWhile (c : exp) (body step : stmt)   (* for (; c; step) body *)
| SDo (body : stmt) (c : exp)           (* do body while (c) *)
| SBreak
| SRet (e : exp)                        (* return e *)
| SCall (f : string) (args : list exp)  (* f(args) *)
| SCallR (x f : string) (args : list exp) (* x = f(args) *)
| SStruct (x : string) (fs : list string) (* a local struct with fields fs *)
| SMalloc (x : string) (t : ety) (n : exp)
| SFree (p : exp)
| SArr (x : string) (es : list exp).    (* int x[] = { es } *)

(** a function: parameters and body *)
Record fdef := mkFun { f_params : list string; f_body : stmt }.

(** for (int x = lo; x < hi; x++) body *)
Definition SFor (x : string) (lo : exp) (c : exp) (body : stmt) : stmt :=
  SSeq (SSet x lo) (SWhile c body (SSet x (EBin Add (EV x) (EI 1)))).

(** statements in sequence *)
Fixpoint block (l : list stmt) : stmt :=
  match l with [] => SSkip | [s] => s | s :: l => SSeq s (block l) end.

Section Meaning.
Context {T : Type} `{OT : Ops T}.

(** values of variables, fields and array elements *)
Inductive val := VI (z : Z) | VD (t : T) | VP (b o : Z) | VNull.

(** what a pointer can point to: an array of double, of int, a struct, or an array of structs *)
Inductive obj := OD (a : arr T) | OI (a : arr Z) | OS (fs : list (string * option val))
               | OV (l : list (list (string * option val))).

(** the variables of the running function, the memory, the next unused address *)
Record state := mkSt { env : string -> option val; mem : Z -> option obj; nxt : Z }.

Definition set_env (s : state) (x : string) (v : val) : state :=
  mkSt (fun y => if String.eqb y x then Some v else env s y) (mem s) (nxt s).
Definition set_mem (s : state) (b : Z) (o : option obj) : state :=
  mkSt (env s) (fun c => if c =? b then o else mem s c) (nxt s).

Fixpoint fget (fs : list (string * option val)) (f : string) : option (option val) :=
  match fs with
  | [] => None
  | (g, v) :: fs => if String.eqb f g then Some v else fget fs f
  end.
Fixpoint fset (fs : list (string * option val)) (f : string) (v : val)
  : list (string * option val) :=
  match fs with
  | [] => []
  | (g, w) :: fs => if String.eqb f g then (g, Some v) :: fs else (g, w) :: fset fs f v
  end.

(** int to double where a double is expected *)
Definition to_dbl (v : val) : res T :=
  match v with VD t => Ok t | VI z => Ok (ofZ z) | _ => Err BadPtr end.
Definition to_int (v : val) : res Z := match v with VI z => Ok z | _ => Err BadPtr end.
(** a condition *)
Definition truth (v : val) : res bool :=
  match v with VI z => Ok (negb (z =? 0)) | VP _ _ => Ok true | VNull => Ok false
             | VD _ => Err BadPtr end.
Definition ofb (b : bool) : val := VI (if b then 1 else 0).

(** both operands int *)
Definition int_op (o : binop) (a b : Z) : res val :=
  match o with
  | Add => Ok (VI (a + b)) | Sub => Ok (VI (a - b)) | Mul => Ok (VI (a * b))
  | Div => if b =? 0 then Err Abort else Ok (VI (Z.quot a b))
  | Mod => if b =? 0 then Err Abort else Ok (VI (Z.rem a b))
  | Lt => Ok (ofb (a <? b)) | Le => Ok (ofb (a <=? b))
  | Gt => Ok (ofb (b <? a)) | Ge => Ok (ofb (b <=? a))
  | Eq => Ok (ofb (a =? b)) | Ne => Ok (ofb (negb (a =? b)))
  end.
(** an operand double: the other is converted; only the operators the source uses *)
Definition dbl_op (o : binop) (a b : T) : res val :=
  match o with
  | Add => Ok (VD (oadd a b)) | Sub => Ok (VD (osub a b))
  | Mul => Ok (VD (omul a b)) | Div => Ok (VD (odiv a b))
  | Lt => Ok (ofb (oltb a b)) | Gt => Ok (ofb (oltb b a))
  | _ => Err BadPtr
  end.
Definition bin_op (o : binop) (v w : val) : res val :=
  match v, w with
  | VI a, VI b => int_op o a b
  | VNull, VNull => match o with Eq => Ok (ofb true) | Ne => Ok (ofb false) | _ => Err BadPtr end
  | VP _ _, VNull | VNull, VP _ _ =>
      match o with Eq => Ok (ofb false) | Ne => Ok (ofb true) | _ => Err BadPtr end
  | _, _ => a <- to_dbl v ;; b <- to_dbl w ;; dbl_op o a b
  end.

(** load of element i through pointer v *)
Definition load (s : state) (v : val) (i : Z) : res val :=
  match v with
  | VP b o =>
      match mem s b with
      | Some (OD a) => t <- rd a (o + i) ;; Ok (VD t)
      | Some (OI a) => z <- rd a (o + i) ;; Ok (VI z)
      | _ => Err BadPtr
      end
  | VNull => Err NullDeref
  | _ => Err BadPtr
  end.

(** load of a field *)
Definition load_fld (s : state) (v : val) (f : string) : res val :=
  match v with
  | VP b 0 =>
      match mem s b with
      | Some (OS fs) => o <- of_option BadPtr (fget fs f) ;; of_option Uninit o
      | _ => Err BadPtr
      end
  | VNull => Err NullDeref
  | _ => Err BadPtr
  end.

(** load of a field of element i of an array of structs *)
Definition load_elt (s : state) (v : val) (i : Z) (f : string) : res val :=
  match v with
  | VP b 0 =>
      match mem s b with
      | Some (OV l) => if i <? 0 then Err OOB else
                       fs <- of_option OOB (nth_error l (Z.to_nat i)) ;;
                       o <- of_option BadPtr (fget fs f) ;; of_option Uninit o
      | _ => Err BadPtr
      end
  | VNull => Err NullDeref
  | _ => Err BadPtr
  end.

Fixpoint eval (s : state) (e : exp) : res val :=
  match e with
  | EI z => Ok (VI z)
  | EDec m k => Ok (VD (dec m k))
  | EV x => of_option Uninit (env s x)
  | ENull => Ok VNull
  | EFld p f => v <- eval s p ;; load_fld s v f
  | EIdx p i => v <- eval s p ;; w <- eval s i ;; k <- to_int w ;; load s v k
  | EIdx2 n p i j =>
      v <- eval s p ;; w <- eval s i ;; k <- to_int w ;; w <- eval s j ;; l <- to_int w ;;
      if (0 <=? l) && (l <? n) then load s v (k * n + l) else Err OOB
  | EIx2 n i j =>
      w <- eval s i ;; k <- to_int w ;; w <- eval s j ;; l <- to_int w ;;
      if (0 <=? l) && (l <? n) then Ok (VI (k * n + l)) else Err OOB
  | EElt p i f => v <- eval s p ;; w <- eval s i ;; k <- to_int w ;; load_elt s v k f
  | EAdr p i =>
      v <- eval s p ;; w <- eval s i ;; k <- to_int w ;;
      match v with VP b o => Ok (VP b (o + k)) | VNull => Err NullDeref | _ => Err BadPtr end
  | EBin o a b => v <- eval s a ;; w <- eval s b ;; bin_op o v w
  | ENeg a => v <- eval s a ;;
      match v with VI z => Ok (VI (- z)) | VD t => Ok (VD (oopp t)) | _ => Err BadPtr end
  | EAnd a b => v <- eval s a ;; t <- truth v ;;
      if t then w <- eval s b ;; u <- truth w ;; Ok (ofb u) else Ok (ofb false)
  | EOr a b => v <- eval s a ;; t <- truth v ;;
      if t then Ok (ofb true) else w <- eval s b ;; u <- truth w ;; Ok (ofb u)
  | ESqrt a => v <- eval s a ;; t <- to_dbl v ;; Ok (VD (osqrt t))
  | EFabs a => v <- eval s a ;; t <- to_dbl v ;; Ok (VD (oabs t))
  | EDbl a => v <- eval s a ;; t <- to_dbl v ;; Ok (VD t)
  end.

(** store of w at element i through pointer v *)
Definition store (s : state) (v : val) (i : Z) (w : val) : res state :=
  match v with
  | VP b o =>
      match mem s b with
      | Some (OD a) => t <- to_dbl w ;; a' <- wr a (o + i) t ;; Ok (set_mem s b (Some (OD a')))
      | Some (OI a) => z <- to_int w ;; a' <- wr a (o + i) z ;; Ok (set_mem s b (Some (OI a')))
      | _ => Err BadPtr
      end
  | VNull => Err NullDeref
  | _ => Err BadPtr
  end.

(** store of a field *)
Definition store_fld (s : state) (v : val) (f : string) (w : val) : res state :=
  match v with
  | VP b 0 =>
      match mem s b with
      | Some (OS fs) => match fget fs f with
                        | Some _ => Ok (set_mem s b (Some (OS (fset fs f w))))
                        | None => Err BadPtr
                        end
      | _ => Err BadPtr
      end
  | VNull => Err NullDeref
  | _ => Err BadPtr
  end.

(** a new object *)
Definition alloc (s : state) (x : string) (o : obj) : state :=
  mkSt (fun y => if String.eqb y x then Some (VP (nxt s) 0) else env s y)
       (fun c => if c =? nxt s then Some o else mem s c) (nxt s + 1).

(** int x[] = { vs } *)
Fixpoint fill (a : arr Z) (i : Z) (vs : list Z) : res (arr Z) :=
  match vs with [] => Ok a | v :: vs => a' <- wr a i v ;; fill a' (i + 1) vs end.

(** how a statement ends *)
Inductive sig := Nrm | Brk | Ret (v : val).

(** a new frame *)
Fixpoint bindp (ps : list string) (vs : list val) (e : string -> option val)
  : res (string -> option val) :=
  match ps, vs with
  | [], [] => Ok e
  | p :: ps, v :: vs => bindp ps vs (fun y => if String.eqb y p then Some v else e y)
  | _, _ => Err BadPtr
  end.

Variable P : string -> option fdef.

(** run a statement with at most [n] nested steps *)
Fixpoint exec (n : nat) (c : stmt) (s : state) : res (state * sig) :=
  match n with
  | O => Err Fuel
  | S n =>
    match c with
    | SSkip => Ok (s, Nrm)
    | SSeq a b => '(s1, g) <- exec n a s ;;
        match g with Nrm => exec n b s1 | _ => Ok (s1, g) end
    | SSet x e => v <- eval s e ;; Ok (set_env s x v, Nrm)
    | SStore p i e => v <- eval s p ;; w <- eval s i ;; k <- to_int w ;; u <- eval s e ;;
        s1 <- store s v k u ;; Ok (s1, Nrm)
    | SFld p f e => v <- eval s p ;; u <- eval s e ;; s1 <- store_fld s v f u ;; Ok (s1, Nrm)
    | SIf e a b => v <- eval s e ;; t <- truth v ;; if t then exec n a s else exec n b s
    | SWhile e b st => v <- eval s e ;; t <- truth v ;;
        if t then
          '(s1, g) <- exec n b s ;;
          match g with
          | Nrm => '(s2, g2) <- exec n st s1 ;;
                   match g2 with Nrm => exec n (SWhile e b st) s2 | _ => Ok (s2, g2) end
          | Brk => Ok (s1, Nrm)
          | Ret v => Ok (s1, Ret v)
          end
        else Ok (s, Nrm)
    | SDo b e =>
        '(s1, g) <- exec n b s ;;
        match g with
        | Nrm => v <- eval s1 e ;; t <- truth v ;;
                 if t then exec n (SDo b e) s1 else Ok (s1, Nrm)
        | Brk => Ok (s1, Nrm)
        | Ret v => Ok (s1, Ret v)
        end
    | SBreak => Ok (s, Brk)
    | SRet e => v <- eval s e ;; Ok (s, Ret v)
    | SCall f args =>
        d <- of_option BadPtr (P f) ;;
        vs <- mapM (eval s) args ;;
        e <- bindp (f_params d) vs (fun _ => None) ;;
        '(s1, g) <- exec n (f_body d) (mkSt e (mem s) (nxt s)) ;;
        match g with
        | Brk => Err BadPtr
        | _ => Ok (mkSt (env s) (mem s1) (nxt s1), Nrm)
        end
    | SCallR x f args =>
        d <- of_option BadPtr (P f) ;;
        vs <- mapM (eval s) args ;;
        e <- bindp (f_params d) vs (fun _ => None) ;;
        '(s1, g) <- exec n (f_body d) (mkSt e (mem s) (nxt s)) ;;
        match g with
        | Ret v => Ok (set_env (mkSt (env s) (mem s1) (nxt s1)) x v, Nrm)
        | _ => Err BadPtr
        end
    | SStruct x fs => Ok (alloc s x (OS (map (fun f => (f, None)) fs)), Nrm)
    | SMalloc x t e => v <- eval s e ;; k <- to_int v ;;
        Ok (alloc s x (match t with TInt => OI (malloc k) | TDbl => OD (malloc k) end), Nrm)
    | SFree p => v <- eval s p ;;
        match v with
        | VP b 0 => match mem s b with Some _ => Ok (set_mem s b None, Nrm) | None => Err BadPtr end
        | VNull => Ok (s, Nrm)
        | _ => Err BadPtr
        end
    | SArr x es => vs <- mapM (fun e => v <- eval s e ;; to_int v) es ;;
        a <- fill (malloc (Z.of_nat (List.length vs))) 0 vs ;;
        Ok (alloc s x (OI a), Nrm)
    end
  end.

(** the run of [c] from [s] ends with outcome [r] *)
Definition runs (c : stmt) (s : state) (r : res (state * sig)) : Prop :=
  exists n0, forall n, (n0 <= n)%nat -> exec n c s = r.

(** a call of function [f] with arguments [vs] in memory [h], [k] the next free address *)
Definition calls (f : string) (vs : list val) (h : Z -> option obj) (k : Z)
    (r : res (state * sig)) : Prop :=
  match P f with
  | Some d => match bindp (f_params d) vs (fun _ => None) with
              | Ok e => runs (f_body d) (mkSt e h k) r
              | Err _ => False
              end
  | None => False
  end.

Lemma runs_det c s r r' : runs c s r -> runs c s r' -> r = r'.
Proof.
  intros (n & Hn) (n' & Hn'). rewrite <- (Hn (n + n')%nat), <- (Hn' (n + n')%nat) by lia.
  reflexivity.
Qed.

End Meaning.
