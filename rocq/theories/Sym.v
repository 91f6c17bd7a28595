(** A second meaning for the syntax trees of Clite.v, over a small memory whose objects are
    lists and whose doubles may be unknowns, so that a stretch of the source with fixed loop
    bounds (the local arrays of src/assembly.cpp) can be run by computation.  It is sound
    for the meaning of Clite.v in any larger memory ([exec1_ok]). *)
From Coq Require Import String.
From Verif Require Import Base Scalar Clite CliteRules.
Local Open Scope string_scope.
Local Open Scope Z_scope.

(** all of them hold *)
Fixpoint alls (l : list Prop) : Prop := match l with [] => True | p :: l => p /\ alls l end.
Lemma alls_app l l' : alls (l ++ l')%list -> alls l /\ alls l'.
Proof.
  induction l as [|p l IH]; cbn; [tauto|]. intros (H & H'). apply IH in H'. tauto.
Qed.

(** computations that may fail, ask for the outcome of a comparison of doubles, and collect
    conditions *)
Definition M1 (A : Type) : Type := list bool -> option (A * list bool * list Prop).
Definition ret1 {A} (a : A) : M1 A := fun o => Some (a, o, []).
Definition none1 {A} : M1 A := fun _ => None.
Definition bind1 {A B} (m : M1 A) (k : A -> M1 B) : M1 B := fun o =>
  match m o with
  | None => None
  | Some (a, o1, p1) =>
      match k a o1 with
      | None => None
      | Some (b, o2, p2) => Some (b, o2, (p1 ++ p2)%list)
      end
  end.
Definition when1 {A} (p : Prop) (a : A) : M1 A := fun o => Some (a, o, [p]).
Definition lift1 {A} (r : res A) : M1 A := match r with Ok a => ret1 a | Err _ => none1 end.
Definition opt1 {A} (r : option A) : M1 A := match r with Some a => ret1 a | None => none1 end.
(** the comparison [b]; the answer is taken from the list of answers *)
Definition ask1 (b : bool) : M1 bool := fun o =>
  match o with d :: o => Some (d, o, [b = d]) | [] => None end.

Fixpoint look1 {A} (x : string) (l : list (string * A)) : option A :=
  match l with [] => None | (y, v) :: l => if String.eqb x y then Some v else look1 x l end.
Fixpoint set1 {A} (x : string) (v : A) (l : list (string * A)) : list (string * A) :=
  match l with
  | [] => [(x, v)]
  | (y, w) :: l => if String.eqb x y then (y, v) :: l else (y, w) :: set1 x v l
  end.
Fixpoint repl1 {A} (n : nat) (v : A) (l : list A) : list A :=
  match l, n with
  | [], _ => []
  | _ :: l, O => v :: l
  | a :: l, S n => a :: repl1 n v l
  end.
Definition at1 {A} (l : list A) (i : Z) : option A :=
  if i <? 0 then None else nth_error l (Z.to_nat i).

Lemma look1_set {A} x y (v : A) l :
  look1 x (set1 y v l) = if String.eqb x y then Some v else look1 x l.
Proof.
  induction l as [|[z w] l IH]; cbn; [destruct (String.eqb x y); reflexivity|].
  destruct (String.eqb_spec y z); cbn; [subst; destruct (String.eqb_spec x z); reflexivity|].
  destruct (String.eqb_spec x z).
  - subst. destruct (String.eqb_spec z y); [congruence|reflexivity].
  - exact IH.
Qed.
Lemma repl1_length {A} n (v : A) l : List.length (repl1 n v l) = List.length l.
Proof. revert n. induction l; intros [|n]; cbn; auto. Qed.
Lemma repl1_nth {A} n m (v : A) l :
  nth_error (repl1 n v l) m = if Nat.eqb m n then match nth_error l m with Some _ => Some v | None => None end
                              else nth_error l m.
Proof.
  revert n m. induction l as [|a l IH]; intros [|n] [|m]; cbn; auto.
  - now destruct (Nat.eqb m n).
Qed.

Lemma NoDup_app_snoc {A} (l : list A) a : NoDup l -> ~ In a l -> NoDup (l ++ [a])%list.
Proof.
  induction l as [|x l IH]; cbn; intros ND N; [constructor; [exact N|constructor]|].
  inversion ND; subst. constructor.
  - rewrite in_app_iff. cbn. intros [I|[->|[]]]; auto.
  - apply IH; auto.
Qed.

Section Sym.
Context {T : Type} `{OT : Ops T}.
Notation val := (@val T).
Notation obj := (@obj T).
Notation state := (@state T).

(** objects of the small memory *)
Inductive obj1 :=
| D1 (l : list (option T))                        (* doubles *)
| I1 (l : list (option Z))                        (* ints *)
| S1 (fs : list (string * option val))            (* a struct *)
| R1 (fs2 fs : list (string * option val))        (* a struct that is only read *)
| V1 (l2 l : list (list (string * option val)))   (* an array of structs, only read *)
| C1 (a : arr T) (l : list (option T))            (* doubles, only read *)
| F1 (a : arr T) (f : Z -> T)                     (* doubles at unknown positions, only read *)
| K1 (a : arr Z) (z : Z)                          (* ints, only read, and only at one position *)
| W1 (a : arr T) (log : list (Z * T))             (* doubles, only written *)
| Opq (a : arr T).                               (* doubles, the array itself *)

(** what is read from an array and what a store makes of it, when within bounds *)
Definition rdv (a : arr T) (i : Z) : T := match rd a i with Ok v => v | Err _ => ofZ 0 end.
Definition wrv (a : arr T) (i : Z) (t : T) : arr T := match wr a i t with Ok a' => a' | Err _ => a end.

Record st1 := mk1 { e1 : list (string * val); m1 : list (option obj1) }.

Definition blk (s : st1) (b : Z) : option obj1 :=
  match at1 (m1 s) b with Some o => o | None => None end.
Definition put1 (s : st1) (b : Z) (o : option obj1) : st1 := mk1 (e1 s) (repl1 (Z.to_nat b) o (m1 s)).
Definition elt {A} (l : list (option A)) (i : Z) : option A :=
  match at1 l i with Some o => o | None => None end.

Definition bin1 (o : binop) (v w : val) : M1 val :=
  match o with
  | Lt => match v, w with
          | VI a, VI b => ret1 (ofb (a <? b))
          | _, _ => bind1 (lift1 (to_dbl v)) (fun a => bind1 (lift1 (to_dbl w)) (fun b =>
                    bind1 (ask1 (oltb a b)) (fun t => ret1 (ofb t))))
          end
  | Gt => match v, w with
          | VI a, VI b => ret1 (ofb (b <? a))
          | _, _ => bind1 (lift1 (to_dbl v)) (fun a => bind1 (lift1 (to_dbl w)) (fun b =>
                    bind1 (ask1 (oltb b a)) (fun t => ret1 (ofb t))))
          end
  | _ => lift1 (bin_op o v w)
  end.

Definition load1 (s : st1) (v : val) (i : Z) : M1 val :=
  match v with
  | VP b o =>
      match blk s b with
      | Some (D1 l) | Some (C1 _ l) => bind1 (opt1 (elt l (o + i))) (fun t => ret1 (VD t))
      | Some (I1 l) => bind1 (opt1 (elt l (o + i))) (fun z => ret1 (VI z))
      | Some (F1 a f) => when1 (rd a (o + i) = Ok (f (o + i))) (VD (f (o + i)))
      | Some (K1 a z) => when1 (rd a (o + i) = Ok z) (VI z)
      | Some (Opq a) => when1 (rd a (o + i) = Ok (rdv a (o + i))) (VD (rdv a (o + i)))
      | _ => none1
      end
  | _ => none1
  end.
Definition fld1 (fs : list (string * option val)) (f : string) : M1 val :=
  match fget fs f with Some (Some v) => ret1 v | _ => none1 end.
Definition load_fld1 (s : st1) (v : val) (f : string) : M1 val :=
  match v with
  | VP b 0 => match blk s b with
              | Some (S1 fs) | Some (R1 _ fs) => fld1 fs f
              | _ => none1
              end
  | _ => none1
  end.
Definition load_elt1 (s : st1) (v : val) (i : Z) (f : string) : M1 val :=
  match v with
  | VP b 0 => match blk s b with
              | Some (V1 _ l) => bind1 (opt1 (at1 l i)) (fun fs => fld1 fs f)
              | _ => none1
              end
  | _ => none1
  end.

Fixpoint eval1 (s : st1) (e : exp) : M1 val :=
  match e with
  | EI z => ret1 (VI z)
  | EDec m k => ret1 (VD (dec m k))
  | EV x => opt1 (look1 x (e1 s))
  | ENull => ret1 VNull
  | EFld p f => bind1 (eval1 s p) (fun v => load_fld1 s v f)
  | EIdx p i => bind1 (eval1 s p) (fun v => bind1 (eval1 s i) (fun w =>
                bind1 (lift1 (to_int w)) (fun k => load1 s v k)))
  | EIdx2 n p i j => bind1 (eval1 s p) (fun v => bind1 (eval1 s i) (fun w =>
      bind1 (lift1 (to_int w)) (fun k => bind1 (eval1 s j) (fun w =>
      bind1 (lift1 (to_int w)) (fun l =>
      if (0 <=? l) && (l <? n) then load1 s v (k * n + l) else none1)))))
  | EIx2 n i j => bind1 (eval1 s i) (fun w =>
      bind1 (lift1 (to_int w)) (fun k => bind1 (eval1 s j) (fun w =>
      bind1 (lift1 (to_int w)) (fun l =>
      if (0 <=? l) && (l <? n) then ret1 (VI (k * n + l)) else none1))))
  | EElt p i f => bind1 (eval1 s p) (fun v => bind1 (eval1 s i) (fun w =>
                  bind1 (lift1 (to_int w)) (fun k => load_elt1 s v k f)))
  | EAdr p i => bind1 (eval1 s p) (fun v => bind1 (eval1 s i) (fun w =>
      bind1 (lift1 (to_int w)) (fun k =>
      match v with VP b o => ret1 (VP b (o + k)) | _ => none1 end)))
  | EBin o a b => bind1 (eval1 s a) (fun v => bind1 (eval1 s b) (fun w => bin1 o v w))
  | ENeg a => bind1 (eval1 s a) (fun v =>
      match v with VI z => ret1 (VI (- z)) | VD t => ret1 (VD (oopp t)) | _ => none1 end)
  | EAnd a b => bind1 (eval1 s a) (fun v => bind1 (lift1 (truth v)) (fun t =>
      if t then bind1 (eval1 s b) (fun w => bind1 (lift1 (truth w)) (fun u => ret1 (ofb u)))
      else ret1 (ofb false)))
  | EOr a b => bind1 (eval1 s a) (fun v => bind1 (lift1 (truth v)) (fun t =>
      if t then ret1 (ofb true)
      else bind1 (eval1 s b) (fun w => bind1 (lift1 (truth w)) (fun u => ret1 (ofb u)))))
  | ESqrt a => bind1 (eval1 s a) (fun v => bind1 (lift1 (to_dbl v)) (fun t => ret1 (VD (osqrt t))))
  | EFabs a => bind1 (eval1 s a) (fun v => bind1 (lift1 (to_dbl v)) (fun t => ret1 (VD (oabs t))))
  | EDbl a => bind1 (eval1 s a) (fun v => bind1 (lift1 (to_dbl v)) (fun t => ret1 (VD t)))
  end.

Fixpoint evals1 (s : st1) (es : list exp) : M1 (list val) :=
  match es with
  | [] => ret1 []
  | e :: es => bind1 (eval1 s e) (fun v => bind1 (evals1 s es) (fun vs => ret1 (v :: vs)))
  end.
Fixpoint ints1 (vs : list val) : option (list Z) :=
  match vs with
  | [] => Some []
  | VI z :: vs => match ints1 vs with Some zs => Some (z :: zs) | None => None end
  | _ => None
  end.

Definition store1 (s : st1) (v : val) (i : Z) (w : val) : M1 st1 :=
  match v with
  | VP b o =>
      match blk s b with
      | Some (D1 l) => bind1 (lift1 (to_dbl w)) (fun t =>
          if (0 <=? o + i) && (o + i <? Z.of_nat (List.length l))
          then ret1 (put1 s b (Some (D1 (repl1 (Z.to_nat (o + i)) (Some t) l)))) else none1)
      | Some (I1 l) => bind1 (lift1 (to_int w)) (fun t =>
          if (0 <=? o + i) && (o + i <? Z.of_nat (List.length l))
          then ret1 (put1 s b (Some (I1 (repl1 (Z.to_nat (o + i)) (Some t) l)))) else none1)
      | Some (W1 a log) => bind1 (lift1 (to_dbl w)) (fun t =>
          when1 (0 <= o + i < alen a) (put1 s b (Some (W1 a (log ++ [(o + i, t)])%list))))
      | Some (Opq a) => bind1 (lift1 (to_dbl w)) (fun t =>
          when1 (wr a (o + i) t = Ok (wrv a (o + i) t)) (put1 s b (Some (Opq (wrv a (o + i) t)))))
      | _ => none1
      end
  | _ => none1
  end.
Definition store_fld1 (s : st1) (v : val) (f : string) (w : val) : M1 st1 :=
  match v with
  | VP b 0 => match blk s b with
              | Some (S1 fs) => match fget fs f with
                                | Some _ => ret1 (put1 s b (Some (S1 (fset fs f w))))
                                | None => none1
                                end
              | _ => none1
              end
  | _ => none1
  end.
Definition alloc1 (s : st1) (x : string) (o : obj1) : st1 :=
  mk1 (set1 x (VP (Z.of_nat (List.length (m1 s))) 0) (e1 s)) (m1 s ++ [Some o])%list.
Fixpoint bindp1 (ps : list string) (vs : list val) (e : list (string * val))
  : option (list (string * val)) :=
  match ps, vs with
  | [], [] => Some e
  | p :: ps, v :: vs => bindp1 ps vs (set1 p v e)
  | _, _ => None
  end.

Variable P : string -> option fdef.
(** summaries of functions proved before: the effect of a call on the small memory *)
Definition summary : Type := list (option obj1) -> list val -> M1 (list (option obj1)).
Variable SM : string -> option summary.

Fixpoint exec1 (n : nat) (c : stmt) (s : st1) : M1 (st1 * @sig T) :=
  match n with
  | O => none1
  | S n =>
    match c with
    | SSkip => ret1 (s, Nrm)
    | SSeq a b => bind1 (exec1 n a s) (fun r =>
        match snd r with Nrm => exec1 n b (fst r) | _ => ret1 r end)
    | SSet x e => bind1 (eval1 s e) (fun v => ret1 (mk1 (set1 x v (e1 s)) (m1 s), Nrm))
    | SStore p i e => bind1 (eval1 s p) (fun v => bind1 (eval1 s i) (fun w =>
        bind1 (lift1 (to_int w)) (fun k => bind1 (eval1 s e) (fun u =>
        bind1 (store1 s v k u) (fun s1 => ret1 (s1, Nrm))))))
    | SFld p f e => bind1 (eval1 s p) (fun v => bind1 (eval1 s e) (fun u =>
        bind1 (store_fld1 s v f u) (fun s1 => ret1 (s1, Nrm))))
    | SIf e a b => bind1 (eval1 s e) (fun v => bind1 (lift1 (truth v)) (fun t =>
        if t then exec1 n a s else exec1 n b s))
    | SWhile e b st => bind1 (eval1 s e) (fun v => bind1 (lift1 (truth v)) (fun t =>
        if t then bind1 (exec1 n b s) (fun r =>
          match snd r with
          | Nrm => bind1 (exec1 n st (fst r)) (fun r2 =>
                   match snd r2 with Nrm => exec1 n (SWhile e b st) (fst r2) | _ => none1 end)
          | _ => none1
          end)
        else ret1 (s, Nrm)))
    | SDo b e => none1
    | SBreak => ret1 (s, Brk)
    | SRet e => bind1 (eval1 s e) (fun v => ret1 (s, Ret v))
    | SCall f args => bind1 (evals1 s args) (fun vs =>
        match SM f with
        | Some sm => bind1 (sm (m1 s) vs) (fun m => ret1 (mk1 (e1 s) m, Nrm))
        | None => bind1 (opt1 (P f)) (fun d =>
        bind1 (opt1 (bindp1 (f_params d) vs [])) (fun e =>
        bind1 (exec1 n (f_body d) (mk1 e (m1 s))) (fun r =>
        match snd r with Brk => none1 | _ => ret1 (mk1 (e1 s) (m1 (fst r)), Nrm) end)))
        end)
    | SCallR x f args => none1
    | SStruct x fs => ret1 (alloc1 s x (S1 (map (fun f => (f, None)) fs)), Nrm)
    | SMalloc x t e => bind1 (eval1 s e) (fun v => bind1 (lift1 (to_int v)) (fun k =>
        if k <? 0 then none1 else
        ret1 (alloc1 s x (match t with TInt => I1 (repeat None (Z.to_nat k))
                                     | TDbl => D1 (repeat None (Z.to_nat k)) end), Nrm)))
    | SFree p => none1
    | SArr x es => none1
    end
  end.

(** ** Soundness *)
(** values, with the addresses [ad] of the objects of the small memory *)
Definition rvr (ad : list Z) (v v2 : val) : Prop :=
  match v with VP b o => exists a, at1 ad b = Some a /\ v2 = VP a o | _ => v2 = v end.
Definition rgr (ad : list Z) (g g2 : @sig T) : Prop :=
  match g, g2 with
  | Nrm, Nrm => True | Brk, Brk => True | Ret v, Ret v2 => rvr ad v v2 | _, _ => False
  end.

Lemma at1_app {A} (l l' : list A) i a : at1 l i = Some a -> at1 (l ++ l')%list i = Some a.
Proof.
  unfold at1. destruct (i <? 0); [discriminate|]. intros E. rewrite nth_error_app1; [exact E|].
  apply nth_error_Some. congruence.
Qed.
Lemma at1_in {A} (l : list A) i a : at1 l i = Some a -> In a l.
Proof. unfold at1. destruct (i <? 0); [discriminate|]. apply nth_error_In. Qed.
Lemma at1_lt {A} (l : list A) i a : at1 l i = Some a -> 0 <= i < Z.of_nat (List.length l).
Proof.
  unfold at1. destruct (Z.ltb_spec i 0); [discriminate|]. intros E.
  assert (Z.to_nat i < List.length l)%nat by (apply nth_error_Some; congruence). lia.
Qed.
Lemma at1_some {A} (l : list A) i : 0 <= i < Z.of_nat (List.length l) -> exists a, at1 l i = Some a.
Proof.
  intros R. unfold at1. destruct (Z.ltb_spec i 0); [lia|].
  destruct (nth_error l (Z.to_nat i)) eqn:E; [eauto|]. apply nth_error_None in E. lia.
Qed.
Lemma at1_inj (ad : list Z) b c a : NoDup ad -> at1 ad b = Some a -> at1 ad c = Some a -> b = c.
Proof.
  intros ND B C. pose proof (at1_lt _ _ _ B). pose proof (at1_lt _ _ _ C). unfold at1 in *.
  destruct (b <? 0); [discriminate|]. destruct (c <? 0); [discriminate|].
  assert (Z.to_nat b = Z.to_nat c); [|lia].
  apply (proj1 (NoDup_nth_error ad)); [exact ND|lia|congruence].
Qed.
Lemma rvr_app ad l v v2 : rvr ad v v2 -> rvr (ad ++ l)%list v v2.
Proof. destruct v; cbn; auto. intros (a & E & ->). eauto using at1_app. Qed.

Definition rfs (ad : list Z) (fs fs2 : list (string * option val)) : Prop :=
  forall f w, fget fs f = Some w -> exists w2, fget fs2 f = Some w2 /\
    match w with Some v => exists v2, w2 = Some v2 /\ rvr ad v v2 | None => True end.
Definition cells {A} (a : arr A) (l : list (option A)) : Prop :=
  alen a = Z.of_nat (List.length l) /\
  forall i v, nth_error l i = Some (Some v) -> aget a (Z.of_nat i) = Some v.

Definition ro (ad : list Z) (o : obj1) (o2 : obj) : Prop :=
  match o with
  | D1 l => exists a, o2 = OD a /\ cells a l
  | I1 l => exists a, o2 = OI a /\ cells a l
  | S1 fs => exists fs2, o2 = OS fs2 /\ rfs ad fs fs2
  | R1 fs2 fs => o2 = OS fs2 /\ rfs ad fs fs2
  | V1 l2 l => o2 = OV l2 /\ forall i fs, nth_error l i = Some fs ->
                 exists fs2, nth_error l2 i = Some fs2 /\ rfs ad fs fs2
  | C1 a l => o2 = OD a /\ cells a l
  | F1 a f => o2 = OD a
  | K1 a z => o2 = OI a
  | W1 a0 log => exists a, o2 = OD a /\ run_stores log a0 = Ok a
  | Opq a => o2 = OD a
  end.
Lemma rfs_app ad l fs fs2 : rfs ad fs fs2 -> rfs (ad ++ l)%list fs fs2.
Proof.
  intros R f w F. destruct (R f w F) as (w2 & F2 & Q). exists w2. split; [exact F2|].
  destruct w; [|exact I]. destruct Q as (v2 & -> & Q). eauto using rvr_app.
Qed.
Lemma ro_app ad l o o2 : ro ad o o2 -> ro (ad ++ l)%list o o2.
Proof.
  destruct o; cbn [ro]; auto.
  - intros (fs2 & -> & R). eauto using rfs_app.
  - intros (-> & R). eauto using rfs_app.
  - intros (-> & R). split; [reflexivity|]. intros i fs E. destruct (R _ _ E) as (x & X & Q).
    eauto using rfs_app.
Qed.

(** the memory *)
Definition msim (ad : list Z) (m : list (option obj1)) (h : Z -> option obj) (k : Z) : Prop :=
  (forall b o a, at1 m b = Some (Some o) -> at1 ad b = Some a -> exists o2, h a = Some o2 /\ ro ad o o2) /\
  List.length ad = List.length m /\ NoDup ad /\ (forall a, In a ad -> a < k).
Definition esim (ad : list Z) (e : list (string * val)) (E : string -> option val) : Prop :=
  forall x v, look1 x e = Some v -> exists v2, E x = Some v2 /\ rvr ad v v2.
Definition sim (ad : list Z) (s : st1) (s2 : state) : Prop :=
  esim ad (e1 s) (env s2) /\ msim ad (m1 s) (mem s2) (nxt s2).
(** memory not mentioned stays *)
Definition kept (ad : list Z) (h h' : Z -> option obj) (k k' : Z) : Prop :=
  k <= k' /\ forall c, c < k -> ~ In c ad -> h' c = h c.
(** variables not mentioned stay *)
Definition ekept (s s' : st1) (s2 s2' : state) : Prop :=
  forall x, look1 x (e1 s') = None -> look1 x (e1 s) = None /\ env s2' x = env s2 x.
(** new objects have new addresses *)
Definition fresh (ad : list Z) (k : Z) (l : list Z) : Prop := forall a, In a l -> k <= a.

(** what a summary has to satisfy *)
Definition sum_ok (f : string) (sm : summary) : Prop :=
  forall m vs q m' q2 p ad h k vs2, sm m vs q = Some (m', q2, p) -> alls p ->
    msim ad m h k -> Forall2 (rvr ad) vs vs2 ->
    exists st g, calls P f vs2 h k (Ok (st, g)) /\ g <> Brk /\
      msim ad m' (mem st) (nxt st) /\ kept ad h (mem st) k (nxt st).
Hypothesis SMok : forall f sm, SM f = Some sm -> sum_ok f sm.

Lemma bind1_some {A B} (m : M1 A) (k : A -> M1 B) o b o2 p :
  bind1 m k o = Some (b, o2, p) -> alls p ->
  exists a o1 p1 p2, m o = Some (a, o1, p1) /\ k a o1 = Some (b, o2, p2) /\ alls p1 /\ alls p2.
Proof.
  unfold bind1. destruct (m o) as [[[a o1] p1]|] eqn:E; [|discriminate].
  destruct (k a o1) as [[[b' o'] p2]|] eqn:E2; [|discriminate]. intros [= <- <- <-] H.
  apply alls_app in H. destruct H. do 4 eexists. eauto.
Qed.
Lemma lift1_some {A} (r : res A) o a o2 p : lift1 r o = Some (a, o2, p) -> r = Ok a.
Proof. destruct r; cbn; [|discriminate]. now intros [= <- <- <-]. Qed.
Lemma opt1_some {A} (r : option A) o a o2 p : opt1 r o = Some (a, o2, p) -> r = Some a.
Proof. destruct r; cbn; [|discriminate]. now intros [= <- <- <-]. Qed.

Lemma blk_at s b o : blk s b = Some o -> at1 (m1 s) b = Some (Some o).
Proof. unfold blk. destruct (at1 (m1 s) b); [congruence|discriminate]. Qed.
Lemma blk_ad ad s s2 b o a : sim ad s s2 -> blk s b = Some o -> at1 ad b = Some a ->
  exists o2, mem s2 a = Some o2 /\ ro ad o o2.
Proof. intros (_ & H & _) B A. apply blk_at in B. eauto. Qed.

Lemma to_dbl_rv ad v v2 t : rvr ad v v2 -> to_dbl v = Ok t -> to_dbl v2 = Ok t.
Proof. destruct v; cbn [rvr]; intros R E; try discriminate; now subst. Qed.
Lemma to_int_rv ad v v2 t : rvr ad v v2 -> to_int v = Ok t -> v2 = VI t.
Proof. destruct v; cbn [rvr]; intros R E; try discriminate. now injection E as ->. Qed.
Lemma truth_rv ad v v2 t : rvr ad v v2 -> truth v = Ok t -> truth v2 = Ok t.
Proof. destruct v; cbn [rvr]; intros R E; try discriminate; subst; auto. destruct R as (a & _ & ->). exact E. Qed.

Lemma int_op_rv ad o a b v : int_op o a b = Ok v -> rvr ad v v.
Proof. destruct o; cbn; try (intros [= <-]; reflexivity); destruct (b =? 0); try discriminate; now intros [= <-]. Qed.
Lemma dbl_op_rv ad o (a b : T) v : dbl_op o a b = Ok v -> rvr ad v v.
Proof. destruct o; cbn; try discriminate; intros [= <-]; reflexivity. Qed.
Lemma bin_op_rv ad o v w u v2 w2 : bin_op o v w = Ok u -> rvr ad v v2 -> rvr ad w w2 ->
  bin_op o v2 w2 = Ok u /\ rvr ad u u.
Proof.
  intros E RV RW. assert (rvr ad u u).
  { destruct v, w; cbn [bin_op] in E; try (now apply (int_op_rv ad) in E);
    try (destruct o; try discriminate; injection E as <-; reflexivity);
    try (apply bind_ok in E; destruct E as (a & Ea & E); apply bind_ok in E;
         destruct E as (b' & Eb & E); now apply (dbl_op_rv ad) in E). }
  split; [|assumption]. rewrite <- E.
  destruct v, w; cbn [rvr] in RV, RW; try (destruct RV as (a1 & _ & ->));
    try (destruct RW as (a2 & _ & ->)); subst; reflexivity.
Qed.

Lemma bin1_ok ad o v w q u q2 p v2 w2 : bin1 o v w q = Some (u, q2, p) -> alls p ->
  rvr ad v v2 -> rvr ad w w2 -> bin_op o v2 w2 = Ok u /\ rvr ad u u.
Proof.
  intros E A RV RW.
  assert (D : forall sw, o = (if sw : bool then Gt else Lt) ->
    bind1 (lift1 (to_dbl v)) (fun a => bind1 (lift1 (to_dbl w)) (fun b =>
      bind1 (ask1 (if sw then oltb b a else oltb a b)) (fun t => ret1 (ofb t)))) q = Some (u, q2, p) ->
    (forall a b, v = VI a -> w = VI b -> False) -> bin_op o v2 w2 = Ok u /\ rvr ad u u).
  { intros sw -> E' NI. apply bind1_some in E'; [|exact A].
    destruct E' as (a & o1 & p1 & p2 & Ea & E' & _ & A2). apply lift1_some in Ea.
    apply bind1_some in E'; [|exact A2]. destruct E' as (b & o3 & p3 & p4 & Eb & E' & _ & A4).
    apply lift1_some in Eb. apply bind1_some in E'; [|exact A4].
    destruct E' as (t & o5 & p5 & p6 & Et & E' & A5 & _). unfold ask1 in Et.
    destruct o3 as [|d o3]; [discriminate|]. injection Et as <- <- <-. destruct A5 as (A5 & _).
    injection E' as <- <- <-.
    destruct v as [x|x| |], w as [y|y| |]; cbn in Ea, Eb; try discriminate;
      cbn [rvr] in RV, RW; subst v2 w2.
    - now elim (NI x y).
    - injection Ea as <-. injection Eb as <-. cbn. destruct sw; cbn; now rewrite A5.
    - injection Ea as <-. injection Eb as <-. cbn. destruct sw; cbn; now rewrite A5.
    - injection Ea as <-. injection Eb as <-. cbn. destruct sw; cbn; now rewrite A5. }
  destruct o; cbn [bin1] in E; try (apply lift1_some in E; now apply (bin_op_rv ad _ v w)).
  - destruct v as [x|x| |]; [destruct w as [y|y| |]|..];
      try (apply (D false eq_refl E); intros; discriminate).
    injection E as <- <- <-. cbn [rvr] in RV, RW. subst. split; reflexivity.
  - destruct v as [x|x| |]; [destruct w as [y|y| |]|..];
      try (apply (D true eq_refl E); intros; discriminate).
    injection E as <- <- <-. cbn [rvr] in RV, RW. subst. split; reflexivity.
Qed.

Lemma elt_cells {A} (a : arr A) l i v : cells a l -> elt l i = Some v -> rd a i = Ok v.
Proof.
  intros (L & C). unfold elt, at1. destruct (Z.ltb_spec i 0); [discriminate|].
  destruct (nth_error l (Z.to_nat i)) as [[w|]|] eqn:E; try discriminate. intros [= <-].
  apply rd_aget. rewrite <- (Z2Nat.id i) by assumption. now apply C.
Qed.

Lemma load1_ok ad s s2 v i q u q2 p v2 : sim ad s s2 -> load1 s v i q = Some (u, q2, p) -> alls p ->
  rvr ad v v2 -> load s2 v2 i = Ok u /\ rvr ad u u.
Proof.
  intros SIM E A RV. destruct v as [|t|b o|]; try discriminate. cbn [load1] in E.
  destruct RV as (ax & Ax & ->).
  destruct (blk s b) as [x|] eqn:B; [|discriminate].
  destruct (blk_ad _ _ _ _ _ _ SIM B Ax) as (o2 & M & R).
  cbn [load]. rewrite M.
  destruct x; cbn [ro] in R; try discriminate.
  - destruct R as (a & -> & C). apply bind1_some in E; [|exact A].
    destruct E as (t & o1 & p1 & p2 & Et & E & _). apply opt1_some in Et. injection E as <- <- <-.
    rewrite (elt_cells _ _ _ _ C Et). split; reflexivity.
  - destruct R as (a & -> & C). apply bind1_some in E; [|exact A].
    destruct E as (t & o1 & p1 & p2 & Et & E & _). apply opt1_some in Et. injection E as <- <- <-.
    rewrite (elt_cells _ _ _ _ C Et). split; reflexivity.
  - destruct R as (-> & C). apply bind1_some in E; [|exact A].
    destruct E as (t & o1 & p1 & p2 & Et & E & _). apply opt1_some in Et. injection E as <- <- <-.
    rewrite (elt_cells _ _ _ _ C Et). split; reflexivity.
  - subst o2. injection E as <- <- <-. destruct A as (A & _). rewrite A. split; reflexivity.
  - subst o2. injection E as <- <- <-. destruct A as (A & _). rewrite A. split; reflexivity.
  - subst o2. injection E as <- <- <-. destruct A as (A & _). rewrite A. split; reflexivity.
Qed.

Lemma fld1_ok ad fs fs2 f q u q2 p : rfs ad fs fs2 -> fld1 fs f q = Some (u, q2, p) ->
  exists u2, (o <- of_option BadPtr (fget fs2 f) ;; of_option Uninit o) = Ok u2 /\ rvr ad u u2.
Proof.
  intros R. unfold fld1. destruct (fget fs f) as [w|] eqn:F; [|discriminate].
  destruct w as [w|]; [|discriminate]. intros [= <- <- <-].
  destruct (R _ _ F) as (w2 & -> & v2 & -> & Q). exists v2. split; [reflexivity|exact Q].
Qed.
Lemma load_fld1_ok ad s s2 v f q u q2 p v2 : sim ad s s2 -> load_fld1 s v f q = Some (u, q2, p) ->
  rvr ad v v2 -> exists u2, load_fld s2 v2 f = Ok u2 /\ rvr ad u u2.
Proof.
  intros SIM E RV. destruct v as [|t|b o|]; try discriminate. cbn [load_fld1] in E.
  destruct RV as (ax & Ax & ->). destruct o; try discriminate.
  destruct (blk s b) as [x|] eqn:B; [|discriminate].
  destruct (blk_ad _ _ _ _ _ _ SIM B Ax) as (o2 & M & R).
  cbn [load_fld]. rewrite M. destruct x; cbn [ro] in R; try discriminate.
  - destruct R as (fs2 & -> & R). eapply fld1_ok; eauto.
  - destruct R as (-> & R). eapply fld1_ok; eauto.
Qed.
Lemma load_elt1_ok ad s s2 v i f q u q2 p v2 : sim ad s s2 -> load_elt1 s v i f q = Some (u, q2, p) ->
  alls p -> rvr ad v v2 -> exists u2, load_elt s2 v2 i f = Ok u2 /\ rvr ad u u2.
Proof.
  intros SIM E A RV. destruct v as [|t|b o|]; try discriminate. cbn [load_elt1] in E.
  destruct RV as (ax & Ax & ->). destruct o; try discriminate.
  destruct (blk s b) as [x|] eqn:B; [|discriminate].
  destruct (blk_ad _ _ _ _ _ _ SIM B Ax) as (o2 & M & R).
  cbn [load_elt]. rewrite M. destruct x; cbn [ro] in R; try discriminate.
  destruct R as (-> & R). apply bind1_some in E; [|exact A].
  destruct E as (fs & o1 & p1 & p2 & Et & E & _). apply opt1_some in Et. unfold at1 in Et.
  destruct (i <? 0); [discriminate|]. destruct (R _ _ Et) as (fs2 & -> & R2). cbn [of_option bind].
  eapply fld1_ok; eauto.
Qed.

Ltac b1 E := apply bind1_some in E; [|match goal with H : alls ?p |- alls ?p => exact H end];
  let a := fresh "a" in let E1 := fresh "E1" in let A1 := fresh "A1" in let A2 := fresh "A2" in
  let o := fresh "q" in let p := fresh "p" in let p' := fresh "p" in
  destruct E as (a & o & p & p' & E1 & E & A1 & A2).
Ltac li := match goal with H : lift1 (to_int ?v) _ = _, R : rvr _ ?v ?v2 |- _ =>
  apply lift1_some in H; apply (to_int_rv _ _ _ _ R) in H; subst v2 end.
Ltac lt := match goal with H : lift1 (truth ?v) _ = _, R : rvr _ ?v ?v2 |- _ =>
  apply lift1_some in H; apply (truth_rv _ _ _ _ R) in H; rewrite H; clear H end.
Ltac ld := match goal with H : lift1 (to_dbl ?v) _ = _, R : rvr _ ?v ?v2 |- _ =>
  apply lift1_some in H; apply (to_dbl_rv _ _ _ _ R) in H; rewrite H; clear H end.

Lemma eval1_ok ad s s2 : sim ad s s2 -> forall e q v q2 p, eval1 s e q = Some (v, q2, p) -> alls p ->
  exists v2, eval s2 e = Ok v2 /\ rvr ad v v2.
Proof.
  intros SIM.
  assert (RR : forall e (v v2 : val), eval s2 e = Ok v2 -> rvr ad v v2 ->
                 exists v2, eval s2 e = Ok v2 /\ rvr ad v v2) by eauto.
  Ltac ih := match goal with
    | IH : forall q v q2 p, eval1 _ ?e q = _ -> _, H : eval1 _ ?e _ = Some _ |- _ =>
        let v2 := fresh "w" in let X := fresh "X" in let R := fresh "R" in
        destruct (IH _ _ _ _ H ltac:(assumption)) as (v2 & X & R); rewrite X; clear H IH end; cbn [bind].
  Ltac fin E := injection E as <- <- <-; eexists; split; [reflexivity|]; try reflexivity; auto.
  induction e; intros q v q2 p0 E A; cbn [eval1 eval] in *.
  - fin E.
  - fin E.
  - apply opt1_some in E. destruct SIM as (H & _). destruct (H _ _ E) as (v2 & -> & R).
    exists v2. split; [reflexivity|exact R].
  - fin E.
  - b1 E. ih. eapply load_fld1_ok; eauto.
  - b1 E. ih. b1 E. ih. b1 E. li. cbn [bind to_int].
    match goal with R : rvr ad a _ |- _ => destruct (load1_ok _ _ _ _ _ _ _ _ _ _ SIM E ltac:(assumption) R) as (-> & RR') end. eauto.
  - b1 E. ih. b1 E. ih. b1 E. li. cbn [bind to_int]. b1 E. ih. b1 E. li. cbn [bind to_int].
    match goal with H : context [if ?b then _ else _] |- _ => destruct b; [|discriminate] end.
    match goal with R : rvr ad a _ |- _ => destruct (load1_ok _ _ _ _ _ _ _ _ _ _ SIM E ltac:(assumption) R) as (-> & RR') end. eauto.
  - b1 E. ih. b1 E. li. cbn [bind to_int]. b1 E. ih. b1 E. li. cbn [bind to_int].
    match goal with H : context [if ?b then _ else _] |- _ => destruct b; [|discriminate] end. fin E.
  - b1 E. ih. b1 E. ih. b1 E. li. cbn [bind to_int]. eapply load_elt1_ok; eauto.
  - b1 E. ih. b1 E. ih. b1 E. li. cbn [bind to_int].
    destruct a; try discriminate. match goal with H : rvr ad (VP _ _) _ |- _ => destruct H as (ax & Ax & ->) end.
    injection E as <- <- <-. eexists. split; [reflexivity|]. cbn. eauto.
  - b1 E. ih. b1 E. ih.
    match goal with R : rvr ad a _, R' : rvr ad a0 _ |- _ =>
      destruct (bin1_ok _ _ _ _ _ _ _ _ _ _ E ltac:(assumption) R R') as (-> & RR') end. eauto.
  - b1 E. ih. destruct a; try discriminate; match goal with H : rvr _ _ _ |- _ => cbn in H; subst end; fin E.
  - b1 E. ih. b1 E. lt. cbn [bind]. destruct a0; [|fin E].
    b1 E. ih. b1 E. lt. fin E.
  - b1 E. ih. b1 E. lt. cbn [bind]. destruct a0; [fin E|].
    b1 E. ih. b1 E. lt. fin E.
  - b1 E. ih. b1 E. ld. fin E.
  - b1 E. ih. b1 E. ld. fin E.
  - b1 E. ih. b1 E. ld. fin E.
Qed.

Lemma evals1_ok ad s s2 : sim ad s s2 -> forall es q vs q2 p, evals1 s es q = Some (vs, q2, p) -> alls p ->
  exists vs2, mapM (eval s2) es = Ok vs2 /\ Forall2 (rvr ad) vs vs2.
Proof.
  intros SIM. induction es as [|e es IH]; intros q vs q2 p0 E A; cbn [evals1 mapM] in *.
  - injection E as <- <- <-. eauto.
  - b1 E. destruct (eval1_ok _ _ _ SIM _ _ _ _ _ E1 A1) as (v2 & -> & R). cbn [bind].
    b1 E. match goal with H : evals1 s es _ = _ |- _ =>
      destruct (IH _ _ _ _ H ltac:(assumption)) as (vs2 & -> & R2) end. cbn [bind].
    injection E as <- <- <-. eexists. split; [reflexivity|]. now constructor.
Qed.

Lemma bindp1_ok ad ps : forall vs vs2 e e' E', bindp1 ps vs e = Some e' -> Forall2 (rvr ad) vs vs2 ->
  esim ad e E' -> exists E2, bindp ps vs2 E' = Ok E2 /\ esim ad e' E2.
Proof.
  induction ps as [|p ps IH]; intros [|v vs] vs2 e e' E' B F H; inversion F; subst;
    cbn [bindp1 bindp] in *; try discriminate.
  - injection B as <-. eauto.
  - apply (IH _ _ _ _ _ B); [assumption|]. intros x w. rewrite look1_set.
    destruct (String.eqb x p); [intros [= <-]; eauto|apply H].
Qed.

Lemma sim_set ad s s2 x v v2 : sim ad s s2 -> rvr ad v v2 ->
  sim ad (mk1 (set1 x v (e1 s)) (m1 s)) (set_env s2 x v2).
Proof.
  intros (H1 & H2) R. split; [|exact H2]. intros y w. cbn. rewrite look1_set.
  destruct (String.eqb y x); [intros [= <-]; eauto|apply H1].
Qed.

Lemma at1_repl {A} (l : list A) b o c : 0 <= b -> at1 (repl1 (Z.to_nat b) o l) c =
  if c =? b then match at1 l b with Some _ => Some o | None => None end else at1 l c.
Proof.
  intros B. unfold at1. destruct (Z.ltb_spec c 0).
  - destruct (Z.eqb_spec c b); [lia|reflexivity].
  - rewrite repl1_nth. destruct (Z.eqb_spec c b).
    + subst. rewrite Nat.eqb_refl. destruct (Z.ltb_spec b 0); [lia|reflexivity].
    + destruct (Nat.eqb_spec (Z.to_nat c) (Z.to_nat b)); [lia|reflexivity].
Qed.

Lemma msim_put ad m h k b a o o2 : msim ad m h k -> at1 ad b = Some a -> ro ad o o2 ->
  msim ad (repl1 (Z.to_nat b) (Some o) m) (fun c => if c =? a then Some o2 else h c) k.
Proof.
  intros (H1 & H2 & H3 & H4) B R. pose proof (at1_lt _ _ _ B) as (B0 & _).
  split; [|split; [|split; assumption]].
  - intros c x a' X A'. rewrite at1_repl in X by exact B0. destruct (Z.eqb_spec c b).
    + subst c. assert (a' = a) by congruence. subst. rewrite Z.eqb_refl.
      destruct (at1 m b); [|discriminate]. injection X as <-. eauto.
    + destruct (Z.eqb_spec a' a) as [->|_]; [|eauto]. elim n. eapply at1_inj; eauto.
  - now rewrite repl1_length.
Qed.
Lemma kept_put ad h k b a o : at1 ad b = Some a ->
  kept ad h (fun c => if c =? a then o else h c) k k.
Proof.
  intros B. split; [lia|]. intros c _ N. destruct (Z.eqb_spec c a); [|reflexivity].
  subst. elim N. eapply at1_in; eauto.
Qed.

Lemma sim_put ad s s2 b a o o2 : sim ad s s2 -> at1 ad b = Some a -> ro ad o o2 ->
  sim ad (put1 s b (Some o)) (set_mem s2 a (Some o2)) /\
  kept ad (mem s2) (mem (set_mem s2 a (Some o2))) (nxt s2) (nxt s2).
Proof.
  intros (H1 & H2) B R. split; [|now apply kept_put with (b := b)].
  split; [exact H1|]. apply msim_put; assumption.
Qed.

Lemma msim_alloc ad m h k o o2 : msim ad m h k -> ro ad o o2 ->
  msim (ad ++ [k])%list (m ++ [Some o])%list (fun c => if c =? k then Some o2 else h c) (k + 1).
Proof.
  intros (H1 & H2 & H3 & H4) R.
  assert (NK : ~ In k ad) by (intros I; apply H4 in I; lia).
  split; [|split; [|split]].
  - intros b x a X A.
    destruct (Z.ltb_spec b (Z.of_nat (List.length ad))) as [L|L].
    + pose proof (at1_lt _ _ _ A) as (B0 & _).
      destruct (at1_some ad b) as (a' & A'); [lia|].
      assert (a' = a) by (apply at1_app with (l' := [k]) in A'; congruence). subst a'.
      destruct (at1_some m b) as (x' & X'); [lia|].
      assert (x' = Some x) by (apply at1_app with (l' := [Some o]) in X'; congruence). subst x'.
      destruct (H1 _ _ _ X' A') as (o' & M & Q). exists o'. split; [|now apply ro_app].
      destruct (Z.eqb_spec a k) as [->|_]; [|exact M]. elim NK. eapply at1_in; eauto.
    + pose proof (at1_lt _ _ _ A) as (_ & B1). rewrite app_length in B1. cbn in B1.
      assert (b = Z.of_nat (List.length ad)) by lia. subst b.
      unfold at1 in X, A. destruct (Z.ltb_spec (Z.of_nat (List.length ad)) 0); [lia|].
      rewrite Nat2Z.id in X, A. rewrite nth_error_app2 in A by lia. rewrite Nat.sub_diag in A.
      cbn in A. injection A as <-. rewrite H2 in X. rewrite nth_error_app2 in X by lia.
      rewrite Nat.sub_diag in X. cbn in X. injection X as <-. rewrite Z.eqb_refl.
      eauto using ro_app.
  - rewrite !app_length. cbn. lia.
  - apply NoDup_app_snoc; assumption.
  - intros a I. apply in_app_iff in I. destruct I as [I|[<-|[]]]; [apply H4 in I|]; lia.
Qed.
Lemma kept_alloc ad h k o : kept ad h (fun c => if c =? k then o else h c) k (k + 1).
Proof. split; [lia|]. intros c C _. destruct (Z.eqb_spec c k); [lia|reflexivity]. Qed.
Lemma esim_app ad l e E : esim ad e E -> esim (ad ++ l)%list e E.
Proof. intros H x v X. destruct (H x v X) as (v2 & Y & R). eauto using rvr_app. Qed.

Lemma sim_alloc ad s s2 x o o2 : sim ad s s2 -> ro ad o o2 ->
  sim (ad ++ [nxt s2])%list (alloc1 s x o) (alloc s2 x o2) /\
  kept ad (mem s2) (mem (alloc s2 x o2)) (nxt s2) (nxt (alloc s2 x o2)).
Proof.
  intros (H1 & H2) R. split; [|apply kept_alloc]. split; [|now apply msim_alloc].
  intros y w. cbn. rewrite look1_set. destruct (String.eqb y x).
  - intros [= <-]. exists (VP (nxt s2) 0). split; [reflexivity|]. cbn. exists (nxt s2). split; [|reflexivity].
    destruct H2 as (_ & L & _). rewrite <- L. unfold at1.
    destruct (Z.ltb_spec (Z.of_nat (List.length ad)) 0); [lia|]. rewrite Nat2Z.id.
    rewrite nth_error_app2, Nat.sub_diag by lia. reflexivity.
  - intros X. destruct (H1 _ _ X) as (v2 & Y & Q). eauto using rvr_app.
Qed.

Lemma cells_wr {A} (a : arr A) l i (t : A) : cells a l -> 0 <= i < Z.of_nat (List.length l) ->
  exists a', wr a i t = Ok a' /\ cells a' (repl1 (Z.to_nat i) (Some t) l).
Proof.
  intros (L & C) R. destruct (wr_ok a i t) as (a' & W & L' & G); [lia|]. exists a'.
  split; [exact W|]. split; [rewrite repl1_length; lia|].
  intros j v. rewrite repl1_nth, G. destruct (Nat.eqb_spec j (Z.to_nat i)).
  - destruct (nth_error l j); [|discriminate]. intros [= <-].
    destruct (Z.eqb_spec (Z.of_nat j) i); [reflexivity|lia].
  - intros E. destruct (Z.eqb_spec (Z.of_nat j) i); [lia|]. now apply C.
Qed.

Lemma store1_ok ad s s2 v i w q s' q2 p v2 w2 : sim ad s s2 -> store1 s v i w q = Some (s', q2, p) -> alls p ->
  rvr ad v v2 -> rvr ad w w2 ->
  exists s2', store s2 v2 i w2 = Ok s2' /\ sim ad s' s2' /\ kept ad (mem s2) (mem s2') (nxt s2) (nxt s2') /\
    e1 s' = e1 s /\ env s2' = env s2.
Proof.
  intros SIM E A RV RW. destruct v as [|t|b o|]; try discriminate. cbn [store1] in E.
  destruct RV as (ax & Ax & ->).
  destruct (blk s b) as [x|] eqn:B; [|discriminate].
  destruct (blk_ad _ _ _ _ _ _ SIM B Ax) as (o2 & M & R).
  cbn [store]. rewrite M. destruct x; cbn [ro] in R; try discriminate.
  - destruct R as (a & -> & C). b1 E. ld. cbn [bind].
    destruct (Z.leb_spec 0 (o + i)); [|discriminate].
    destruct (Z.ltb_spec (o + i) (Z.of_nat (List.length l))); [|discriminate].
    cbn [andb] in E. injection E as <- <- <-.
    destruct (cells_wr a l (o + i) a0 C) as (a' & W & C'); [lia|]. rewrite W. cbn [bind].
    eexists. split; [reflexivity|].
    destruct (sim_put ad s s2 b ax (D1 (repl1 (Z.to_nat (o + i)) (Some a0) l)) (OD a') SIM Ax) as (S & Kp);
      [exists a'; auto|]. auto.
  - destruct R as (a & -> & C). b1 E. li. cbn [bind to_int].
    destruct (Z.leb_spec 0 (o + i)); [|discriminate].
    destruct (Z.ltb_spec (o + i) (Z.of_nat (List.length l))); [|discriminate].
    cbn [andb] in E. injection E as <- <- <-.
    destruct (cells_wr a l (o + i) a0 C) as (a' & W & C'); [lia|]. rewrite W. cbn [bind].
    eexists. split; [reflexivity|].
    destruct (sim_put ad s s2 b ax (I1 (repl1 (Z.to_nat (o + i)) (Some a0) l)) (OI a') SIM Ax) as (S & Kp);
      [exists a'; auto|]. auto.
  - destruct R as (a' & -> & C). b1 E. ld. cbn [bind].
    unfold when1 in E. injection E as <- <- <-.
    match goal with H : alls [_] |- _ => destruct H as (RG & _) end.
    destruct (run_stores_inv _ _ _ C) as (_ & L & _).
    destruct (wr_ok a' (o + i) a0) as (a2 & W & _); [rewrite L; exact RG|]. rewrite W. cbn [bind].
    eexists. split; [reflexivity|].
    destruct (sim_put ad s s2 b ax (W1 a (log ++ [(o + i, a0)])%list) (OD a2) SIM Ax) as (S & Kp).
    { exists a2. split; [reflexivity|]. rewrite run_stores_app, C. cbn. now rewrite W. }
    auto.
  - subst o2. b1 E. ld. cbn [bind].
    unfold when1 in E. injection E as <- <- <-.
    match goal with H : alls [_] |- _ => destruct H as (RG & _) end. rewrite RG. cbn [bind].
    eexists. split; [reflexivity|].
    destruct (sim_put ad s s2 b ax (Opq (wrv a (o + i) a0)) (OD (wrv a (o + i) a0)) SIM Ax) as (S & Kp);
      [reflexivity|]. auto.
Qed.

Lemma fget_fset fs f g (w : val) : fget (fset fs f w) g =
  if String.eqb g f then match fget fs f with Some _ => Some (Some w) | None => None end else fget fs g.
Proof.
  induction fs as [|[h u] fs IH]; cbn.
  - now destruct (String.eqb g f).
  - destruct (String.eqb_spec f h).
    + subst. cbn. destruct (String.eqb_spec g h); [now rewrite ?String.eqb_refl|reflexivity].
    + cbn. destruct (String.eqb_spec g h).
      * subst. destruct (String.eqb_spec h f); [congruence|reflexivity].
      * exact IH.
Qed.

Lemma store_fld1_ok ad s s2 v f w q s' q2 p v2 w2 : sim ad s s2 -> store_fld1 s v f w q = Some (s', q2, p) ->
  rvr ad v v2 -> rvr ad w w2 ->
  exists s2', store_fld s2 v2 f w2 = Ok s2' /\ sim ad s' s2' /\ kept ad (mem s2) (mem s2') (nxt s2) (nxt s2') /\
    e1 s' = e1 s /\ env s2' = env s2.
Proof.
  intros SIM E RV RW. destruct v as [|t|b o|]; try discriminate. cbn [store_fld1] in E.
  destruct RV as (ax & Ax & ->). destruct o; try discriminate.
  destruct (blk s b) as [x|] eqn:B; [|discriminate].
  destruct (blk_ad _ _ _ _ _ _ SIM B Ax) as (o2 & M & R).
  cbn [store_fld]. rewrite M. destruct x; cbn [ro] in R; try discriminate.
  destruct R as (fs2 & -> & R). destruct (fget fs f) as [u|] eqn:F; [|discriminate].
  injection E as <- <- <-. destruct (R _ _ F) as (u2 & F2 & _). rewrite F2.
  eexists. split; [reflexivity|].
  destruct (sim_put ad s s2 b ax (S1 (fset fs f w)) (OS (fset fs2 f w2)) SIM Ax) as (S & Kp).
  { exists (fset fs2 f w2). split; [reflexivity|]. intros g z. rewrite !fget_fset.
    destruct (String.eqb g f); [|apply R]. rewrite F, F2. intros [= <-]. eauto. }
  auto.
Qed.

Lemma kept_refl ad h k : kept ad h h k k. Proof. split; [lia|reflexivity]. Qed.
Lemma kept_trans ad l h1 h2 h3 k1 k2 k3 : kept ad h1 h2 k1 k2 -> kept (ad ++ l)%list h2 h3 k2 k3 ->
  fresh ad k1 l -> kept ad h1 h3 k1 k3.
Proof.
  intros (A1' & A2') (B1 & B2) F. split; [lia|]. intros c C N. rewrite B2; [auto|lia|].
  intros I. apply in_app_iff in I. destruct I as [I|I]; [auto|]. apply F in I. lia.
Qed.
Lemma ekept_refl s s2 : ekept s s s2 s2. Proof. intros x H. auto. Qed.
Lemma ekept_trans s s1 s' t t1 t' : ekept s s1 t t1 -> ekept s1 s' t1 t' -> ekept s s' t t'.
Proof. intros H1 H2 x H. apply H2 in H. destruct H as (H & E). apply H1 in H. destruct H. split; congruence. Qed.
Lemma ekept_same s s' s2 s2' : e1 s' = e1 s -> env s2' = env s2 -> ekept s s' s2 s2'.
Proof. intros E1 E2 x H. rewrite E1 in H. now rewrite E2. Qed.
Lemma ekept_set x v o s s2 v2 m : ekept s (mk1 (set1 x v (e1 s)) o) s2
  (mkSt (fun y => if String.eqb y x then Some v2 else env s2 y) (fst m) (snd m)).
Proof.
  intros y H. cbn in *. rewrite look1_set in H. destruct (String.eqb y x); [discriminate|auto].
Qed.
Lemma fresh_nil ad k : fresh ad k []. Proof. intros a []. Qed.

(** the outcome of a run of the small memory and of the large one *)
Definition agrees (ad : list Z) (c : stmt) (s s' : st1) (s2 : state) (g : @sig T) : Prop :=
  exists l s2' g2, runs P c s2 (Ok (s2', g2)) /\ rgr (ad ++ l)%list g g2 /\ sim (ad ++ l)%list s' s2' /\
    fresh ad (nxt s2) l /\ kept ad (mem s2) (mem s2') (nxt s2) (nxt s2') /\ ekept s s' s2 s2'.

Lemma agrees0 ad c s s' s2 s2' g g2 : runs P c s2 (Ok (s2', g2)) -> rgr ad g g2 -> sim ad s' s2' ->
  kept ad (mem s2) (mem s2') (nxt s2) (nxt s2') -> ekept s s' s2 s2' -> agrees ad c s s' s2 g.
Proof.
  intros. exists [], s2', g2. rewrite app_nil_r. pose proof (fresh_nil ad (nxt s2)). tauto.
Qed.
Lemma agrees_then ad l c s s1 s' s2 s2' g (c2 : stmt) :
  (forall r, runs P c2 s2' r -> runs P c s2 r) ->
  fresh ad (nxt s2) l -> kept ad (mem s2) (mem s2') (nxt s2) (nxt s2') -> ekept s s1 s2 s2' ->
  agrees (ad ++ l)%list c2 s1 s' s2' g -> agrees ad c s s' s2 g.
Proof.
  intros RW F Kp Ek (l' & s3 & g2 & R & G & S & F' & Kp' & Ek').
  exists (l ++ l')%list, s3, g2. rewrite app_assoc. split; [now apply RW|]. split; [exact G|].
  split; [exact S|]. split; [|split].
  - intros a I. apply in_app_iff in I. destruct I as [I|I]; [auto|]. apply F' in I. destruct Kp. lia.
  - eapply kept_trans; eauto.
  - eapply ekept_trans; eauto.
Qed.
Lemma rgr_nrm ad g2 : rgr ad Nrm g2 -> g2 = Nrm.
Proof. destruct g2; cbn; tauto. Qed.

Theorem exec1_ok n : forall c s s2 q s' g q2 p ad,
  exec1 n c s q = Some ((s', g), q2, p) -> alls p -> sim ad s s2 -> agrees ad c s s' s2 g.
Proof.
  induction n as [|n IH]; intros c s s2 q s' g q2 p0 ad E A SIM; [discriminate|].
  destruct c; cbn [exec1] in *; try discriminate.
  - injection E as <- <- <- <-. eapply agrees0; eauto using runs_skip, kept_refl, ekept_refl.
  - b1 E. destruct a as [s1 g1].
    destruct (IH _ _ _ _ _ _ _ _ _ E1 A1 SIM) as (l & t1 & g2 & R1 & G1 & S1' & F1' & K1' & Q1).
    destruct g1; cbn [snd fst] in *.
    + apply rgr_nrm in G1. subst g2.
      eapply agrees_then; [intros r R; eapply runs_seq; [exact R1|exact R]|exact F1'|exact K1'|exact Q1|
        eapply IH; eauto].
    + injection E as <- <- <- <-. destruct g2; try contradiction. exists l, t1, Brk.
      split; [apply runs_seq_stop; [exact R1|discriminate]|]. auto.
    + injection E as <- <- <- <-. destruct g2 as [| |v2]; try contradiction. exists l, t1, (Ret v2).
      split; [apply runs_seq_stop; [exact R1|discriminate]|]. auto.
  - b1 E. destruct (eval1_ok _ _ _ SIM _ _ _ _ _ E1 A1) as (v2 & X & R). injection E as <- <- <- <-.
    eapply agrees0; [apply runs_set; exact X|exact I|now apply sim_set| |].
    + apply kept_refl.
    + apply (ekept_set x a (m1 s) s s2 v2 (mem s2, nxt s2)).
  - b1 E. destruct (eval1_ok _ _ _ SIM _ _ _ _ _ E1 A1) as (v2 & X1 & R1).
    b1 E. match goal with H : eval1 s i _ = _ |- _ => destruct (eval1_ok _ _ _ SIM _ _ _ _ _ H ltac:(assumption)) as (w2 & X2 & R2) end.
    b1 E. li.
    b1 E. match goal with H : eval1 s e _ = _ |- _ => destruct (eval1_ok _ _ _ SIM _ _ _ _ _ H ltac:(assumption)) as (u2 & X3 & R3) end.
    b1 E. injection E as <- <- <- <-.
    match goal with H : store1 _ _ _ _ _ = _ |- _ =>
      destruct (store1_ok _ _ _ _ _ _ _ _ _ _ _ _ SIM H ltac:(assumption) R1 R3) as (t & X & S' & K' & E1' & E2') end.
    eapply (agrees0 _ _ _ _ _ _ Nrm Nrm); [|exact I|exact S'|exact K'|now apply ekept_same].
    exists 1%nat. intros [|k] L; [lia|]. cbn [exec]. rewrite X1, X2, X3. cbn [bind to_int]. now rewrite X.
  - b1 E. destruct (eval1_ok _ _ _ SIM _ _ _ _ _ E1 A1) as (v2 & X1 & R1).
    b1 E. match goal with H : eval1 s e _ = _ |- _ => destruct (eval1_ok _ _ _ SIM _ _ _ _ _ H ltac:(assumption)) as (u2 & X3 & R3) end.
    b1 E. injection E as <- <- <- <-.
    match goal with H : store_fld1 _ _ _ _ _ = _ |- _ =>
      destruct (store_fld1_ok _ _ _ _ _ _ _ _ _ _ _ _ SIM H R1 R3) as (t & X & S' & K' & E1' & E2') end.
    eapply (agrees0 _ _ _ _ _ _ Nrm Nrm); [|exact I|exact S'|exact K'|now apply ekept_same].
    exists 1%nat. intros [|k] L; [lia|]. cbn [exec]. rewrite X1, X3. cbn [bind]. now rewrite X.
  - b1 E. destruct (eval1_ok _ _ _ SIM _ _ _ _ _ E1 A1) as (v2 & X1 & R1). b1 E.
    match goal with H : lift1 (truth _) _ = _ |- _ => apply lift1_some in H; apply (truth_rv _ _ _ _ R1) in H;
      rename H into TR end.
    assert (SIM' : sim (ad ++ [])%list s s2) by (rewrite app_nil_r; exact SIM).
    destruct a0; (eapply (agrees_then ad [] _ s s s' s2 s2); [intros r R; eapply runs_if; eauto|
      apply fresh_nil|apply kept_refl|apply ekept_refl|eapply IH; eauto]).
  - b1 E. destruct (eval1_ok _ _ _ SIM _ _ _ _ _ E1 A1) as (v2 & X1 & R1). b1 E.
    match goal with H : lift1 (truth _) _ = _ |- _ => apply lift1_some in H; apply (truth_rv _ _ _ _ R1) in H;
      rename H into TR end.
    destruct a0.
    2: { injection E as <- <- <- <-. eapply agrees0; eauto using kept_refl, ekept_refl, runs_while_stop. }
    b1 E. destruct a0 as [s1 g1].
    match goal with H : exec1 n _ s _ = Some _ |- _ =>
      destruct (IH _ _ _ _ _ _ _ _ _ H ltac:(assumption) SIM) as (l & t1 & g2 & Rb & G1 & S1' & F1' & K1' & Q1) end.
    destruct g1; cbn [snd fst] in *; try discriminate. apply rgr_nrm in G1. subst g2.
    b1 E. destruct a0 as [s3 g3].
    match goal with H : exec1 n _ s1 _ = Some _ |- _ =>
      destruct (IH _ _ _ _ _ _ _ _ _ H ltac:(assumption) S1') as (l3 & t3 & g2 & Rs & G3 & S3' & F3' & K3' & Q3) end.
    destruct g3; cbn [snd fst] in *; try discriminate. apply rgr_nrm in G3. subst g2.
    eapply (agrees_then ad (l ++ l3) _ s s3 s' s2 t3).
    + intros r R. eapply runs_while_go; eauto.
    + intros x I. apply in_app_iff in I. destruct I as [I|I]; [auto|]. apply F3' in I. destruct K1'. lia.
    + eapply kept_trans; eauto.
    + eapply ekept_trans; eauto.
    + rewrite app_assoc. eapply IH; eauto.
  - injection E as <- <- <- <-. eapply agrees0; eauto using runs_break, kept_refl, ekept_refl.
  - b1 E. destruct (eval1_ok _ _ _ SIM _ _ _ _ _ E1 A1) as (v2 & X1 & R1). injection E as <- <- <- <-.
    eapply agrees0; [apply runs_ret; exact X1|exact R1|exact SIM|apply kept_refl|apply ekept_refl].
  - b1 E. destruct (evals1_ok _ _ _ SIM _ _ _ _ _ E1 A1) as (vs2 & Xs & Rs).
    destruct (SM f) as [sm|] eqn:SF.
    + b1 E. injection E as <- <- <- <-.
      match goal with H : sm _ _ _ = _ |- _ =>
        destruct (SMok _ _ SF _ _ _ _ _ _ ad _ _ _ H ltac:(assumption) (proj2 SIM) Rs) as (st & g2 & C & NB & M' & K') end.
      unfold calls in C. destruct (P f) as [d|] eqn:PF; [|contradiction].
      destruct (bindp (f_params d) vs2 (fun _ => None)) as [e|] eqn:B; [|contradiction].
      eapply agrees0; [eapply runs_call; eauto|exact I| | |].
      * split; [exact (proj1 SIM)|exact M'].
      * exact K'.
      * now apply ekept_same.
    + b1 E. match goal with H : opt1 (P f) _ = _ |- _ => apply opt1_some in H; rename H into PF end.
      b1 E. match goal with H : opt1 (bindp1 _ _ _) _ = _ |- _ => apply opt1_some in H;
        destruct (bindp1_ok ad _ _ _ _ _ (fun _ => None) H Rs) as (E' & B1 & B2) end.
      { intros x v. discriminate. }
      b1 E. match goal with a : (st1 * sig)%type |- _ => destruct a as [s1 g1] end.
      match goal with H : exec1 n (f_body _) _ _ = _ |- _ =>
        destruct (IH _ _ (mkSt E' (mem s2) (nxt s2)) _ _ _ _ _ ad H ltac:(assumption))
          as (l & t1 & g2 & Rb & G1 & S1' & F1' & K1' & Q1) end.
      { split; [exact B2|exact (proj2 SIM)]. }
      assert (NB : g2 <> Brk /\ s' = mk1 (e1 s) (m1 s1) /\ g = Nrm).
      { destruct g1; cbn [snd fst] in *; try discriminate; injection E as <- <- <- <-;
          destruct g2; try contradiction; repeat split; discriminate. }
      destruct NB as (NB & -> & ->).
      exists l, (mkSt (env s2) (mem t1) (nxt t1)), Nrm.
      split; [eapply runs_call; eauto|]. split; [exact I|].
      split; [split; [apply esim_app; exact (proj1 SIM)|exact (proj2 S1')]|].
      split; [exact F1'|]. split; [exact K1'|now apply ekept_same].
  - injection E as <- <- <- <-.
    destruct (sim_alloc ad s s2 x (Sym.S1 (map (fun f => (f, None)) fs)) (OS (map (fun f => (f, None)) fs)) SIM) as (S' & K').
    { eexists. split; [reflexivity|]. intros f w F. exists w. split; [exact F|].
      assert (w = None) as ->; [|exact I]. clear -F. induction fs as [|h fs IH]; cbn in F; [discriminate|].
      destruct (String.eqb f h); [congruence|auto]. }
    exists [nxt s2], (alloc s2 x (OS (map (fun f => (f, None)) fs))), Nrm.
    split; [exists 1%nat; intros [|k] L; [lia|]; reflexivity|]. split; [exact I|]. split; [exact S'|].
    split; [intros a [<-|[]]; lia|]. split; [exact K'|].
    apply (ekept_set x _ _ s s2 _ (_, _)).
  - b1 E. destruct (eval1_ok _ _ _ SIM _ _ _ _ _ E1 A1) as (v2 & X1 & R1).
    b1 E. li. destruct (Z.ltb_spec a0 0); [discriminate|].
    injection E as <- <- <- <-.
    assert (CM : forall B : Type, cells (@malloc B a0) (repeat None (Z.to_nat a0))).
    { intros B. split; [cbn; rewrite repeat_length; lia|]. intros i v X.
      apply nth_error_In, repeat_spec in X. discriminate. }
    destruct (sim_alloc ad s s2 x
      (match t with TInt => Sym.I1 (repeat None (Z.to_nat a0)) | TDbl => Sym.D1 (repeat None (Z.to_nat a0)) end)
      (match t with TInt => OI (malloc a0) | TDbl => OD (malloc a0) end) SIM) as (S' & K').
    { destruct t; cbn [ro]; eauto. }
    eexists [nxt s2], _, Nrm.
    split; [apply runs_malloc; exact X1|]. split; [exact I|]. split; [exact S'|].
    split; [intros a' [<-|[]]; lia|]. split; [exact K'|].
    apply (ekept_set x _ _ s s2 _ (_, _)).
Qed.
End Sym.

(** ** Use: the objects of a run as a list, at the addresses [ad] *)
Section Use.
Context {T : Type} `{OT : Ops T}.
Variable P : string -> option fdef.
Variable SM : string -> option (@summary T).
Hypothesis SMok : forall f sm, SM f = Some sm -> sum_ok P f sm.

Fixpoint atall (full ad : list Z) (os : list (option (@obj1 T))) (h : Z -> option obj) : Prop :=
  match ad, os with
  | [], [] => True
  | a :: ad, o :: os =>
      match o with Some o => exists o2, h a = Some o2 /\ ro full o o2 | None => True end /\
      atall full ad os h
  | _, _ => False
  end.

Lemma atall_len full ad : forall os h, atall full ad os h -> List.length ad = List.length os.
Proof.
  induction ad as [|a ad IH]; intros [|o os] h H; cbn in *; try tauto. f_equal. eapply IH. apply H.
Qed.
Lemma atall_nth full ad : forall os h b o a, atall full ad os h -> nth_error os b = Some (Some o) ->
  nth_error ad b = Some a -> exists o2, h a = Some o2 /\ ro full o o2.
Proof.
  induction ad as [|a ad IH]; intros [|o os] h b o' a' H O A; destruct b; cbn in *; try discriminate;
    try tauto.
  - injection O as ->. injection A as <-. apply H.
  - destruct H as (_ & H). eauto.
Qed.
Lemma atall_msim ad os h k : atall ad ad os h -> NoDup ad -> Forall (fun a => a < k) ad -> msim ad os h k.
Proof.
  intros H ND F. split; [|split; [eapply atall_len; eauto|split; [exact ND|now apply Forall_forall]]].
  intros b o a. unfold at1. destruct (b <? 0); [discriminate|]. intros O A. eapply atall_nth; eauto.
Qed.
Lemma msim_atall full m h k : msim full m h k -> forall ad l n,
  full = (firstn n full ++ ad ++ l)%list -> (n <= List.length full)%nat ->
  atall full ad (firstn (List.length ad) (skipn n m)) h.
Proof.
  intros (H1 & H2 & _ & _). induction ad as [|a ad IH]; intros l n E N; cbn; [exact I|].
  assert (LE : List.length full = (n + (S (List.length ad) + List.length l))%nat).
  { rewrite E at 1. rewrite !app_length, firstn_length. cbn [List.length]. lia. }
  assert (NA : nth_error full n = Some a).
  { rewrite E, nth_error_app2; rewrite firstn_length, Nat.min_l by lia; [|lia].
    now rewrite Nat.sub_diag. }
  destruct (skipn n m) as [|o os] eqn:SK.
  { assert (List.length (skipn n m) = 0%nat) by now rewrite SK. rewrite skipn_length in *. lia. }
  assert (NM : nth_error m n = Some o).
  { rewrite <- (firstn_skipn n m), nth_error_app2; rewrite firstn_length, Nat.min_l by lia; [|lia].
    rewrite SK. now rewrite Nat.sub_diag. }
  assert (SK' : skipn (S n) m = os).
  { clear -SK. revert m SK. induction n as [|n IH]; intros [|x m] SK; cbn in *; try discriminate.
    - now injection SK.
    - now apply IH. }
  split.
  - destruct o as [o|]; [|exact I]. apply (H1 (Z.of_nat n)); unfold at1;
      (destruct (Z.ltb_spec (Z.of_nat n) 0); [lia|]); rewrite Nat2Z.id; assumption.
  - rewrite <- SK'. apply (IH l). 2: { lia. }
    rewrite E at 1. cbn [app].
    assert (F : firstn (S n) full = (firstn n full ++ [a])%list).
    { clear -NA. revert n NA. induction full as [|x full IH]; intros [|n] NA; cbn in *; try discriminate.
      - now injection NA as ->.
      - now rewrite IH. }
    rewrite F, <- app_assoc. reflexivity.
Qed.

(** what a run leaves in the first [n] objects *)
Definition out (n : nat) (r : option ((@st1 T * @sig T) * list bool * list Prop))
  : option (list (option (@obj1 T)) * list Prop) :=
  match r with Some ((s, Nrm), _, p) => Some (firstn n (m1 s), p) | _ => None end.

Theorem calls_sym f d vs vs2 e ad os h k n q os' p :
  P f = Some d -> bindp1 (f_params d) vs [] = Some e ->
  atall ad ad os h -> NoDup ad -> Forall (fun a => a < k) ad -> Forall2 (rvr ad) vs vs2 ->
  out (List.length os) (exec1 P SM n (f_body d) (mk1 e os) q) = Some (os', p) -> alls p ->
  exists l st, calls P f vs2 h k (Ok (st, Nrm)) /\ atall (ad ++ l)%list ad os' (mem st) /\
    kept ad h (mem st) k (nxt st).
Proof.
  intros PF B H ND F R E A.
  destruct (bindp1_ok ad _ _ _ _ _ (fun _ => None) B R) as (E' & B1 & B2); [intros x v; discriminate|].
  unfold out in E. destruct (exec1 P SM n (f_body d) (mk1 e os) q) as [[[[s' g] q2] p']|] eqn:X; [|discriminate].
  destruct g; try discriminate. injection E as <- <-.
  destruct (exec1_ok P SM SMok _ _ _ (mkSt E' h k) _ _ _ _ _ ad X A) as (l & st & g2 & RB & G & S & Fr & Kp & _).
  { split; [exact B2|]. apply atall_msim; assumption. }
  apply rgr_nrm in G. subst g2. exists l, st. split; [|split; [|exact Kp]].
  - unfold calls. rewrite PF, B1. exact RB.
  - rewrite <- (atall_len _ _ _ _ H). apply (msim_atall _ _ _ _ (proj2 S) ad l 0%nat); [reflexivity|lia].
Qed.

(** the same, the run first *)
Theorem calls_out f d vs vs2 e ad os h k n q os' p :
  out (List.length os) (exec1 P SM n (f_body d) (mk1 e os) q) = Some (os', p) ->
  P f = Some d -> bindp1 (f_params d) vs [] = Some e -> alls p ->
  NoDup ad -> Forall (fun a => a < k) ad -> Forall2 (rvr ad) vs vs2 -> atall ad ad os h ->
  exists l st, calls P f vs2 h k (Ok (st, Nrm)) /\ atall (ad ++ l)%list ad os' (mem st) /\
    kept ad h (mem st) k (nxt st).
Proof. intros. eapply calls_sym; eauto. Qed.
End Use.
