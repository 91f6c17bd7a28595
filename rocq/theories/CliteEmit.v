(** Statements of the little language that only fill one array: the list of their stores. *)
From Coq Require Import String.
From Verif Require Import Base Scalar Clite CliteRules.
Local Open Scope string_scope.
Local Open Scope Z_scope.

Section Emit.
Context {T : Type} `{OT : Ops T}.
Variable P : string -> option fdef.
Notation state := (@state T).
Notation val := (@val T).
Notation obj := (@obj T).
Notation runs := (runs P).
Notation goes := (goes P).

(** what is known: variables, fields of the struct a variable points to, int arrays and
    double arrays a variable points to *)
Record kn := mkKn {
  ki : list (string * val);
  kf : list (string * string * val);
  ka : list (string * list Z);
  kd : list (string * (Z * (Z -> T))) }.

Definition add (x : string) (v : val) (k : kn) : kn := mkKn ((x, v) :: ki k) (kf k) (ka k) (kd k).
Definition adda (x : string) (l : list Z) (k : kn) : kn := mkKn (ki k) (kf k) ((x, l) :: ka k) (kd k).

Definition names (k : kn) : list string :=
  (map fst (ki k) ++ map (fun e => fst (fst e)) (kf k) ++ map fst (ka k) ++ map fst (kd k))%list.
Definition free (x : string) (k : kn) : bool := negb (mems x (names k)).

(** the array that is filled *)
Variable b : Z.

Definition kfld (s : state) (x f : string) (v : val) : Prop :=
  exists c fs, env s x = Some (VP c 0) /\ c <> b /\ c < nxt s /\ mem s c = Some (OS fs) /\
    fget fs f = Some (Some v).
Definition karr (s : state) (x : string) (l : list Z) : Prop :=
  exists c a, env s x = Some (VP c 0) /\ c <> b /\ c < nxt s /\ mem s c = Some (OI a) /\
    forall j, 0 <= j < Z.of_nat (List.length l) -> rd a j = Ok (nth (Z.to_nat j) l 0).
Definition kdbl (s : state) (x : string) (n : Z) (g : Z -> T) : Prop :=
  exists c a, env s x = Some (VP c 0) /\ c <> b /\ c < nxt s /\ mem s c = Some (OD a) /\
    forall j, 0 <= j < n -> rd a j = Ok (g j).

Definition knows (k : kn) (s : state) : Prop :=
  b < nxt s /\
  (forall x v, In (x, v) (ki k) -> env s x = Some v) /\
  (forall x f v, In (x, f, v) (kf k) -> kfld s x f v) /\
  (forall x l, In (x, l) (ka k) -> karr s x l) /\
  (forall x n g, In (x, (n, g)) (kd k) -> kdbl s x n g).

(** everything allocated before is as before, but for the array *)
Definition ext (s s' : state) : Prop :=
  nxt s <= nxt s' /\ forall c, c < nxt s -> c <> b -> mem s' c = mem s c.
Lemma ext_refl s : ext s s. Proof. split; [lia|reflexivity]. Qed.
Lemma ext_trans s s1 s2 : ext s s1 -> ext s1 s2 -> ext s s2.
Proof. intros (N1 & H1) (N2 & H2). split; [lia|]. intros c L B. rewrite H2 by lia. now apply H1. Qed.

Lemma knows_mono k s s' :
  knows k s -> (forall x, mems x (names k) = true -> env s' x = env s x) -> ext s s' -> knows k s'.
Proof.
  intros (B & H1 & H2 & H3 & H4) E (N & M).
  assert (IN : forall x, In x (names k) -> env s' x = env s x).
  { intros x Hx. apply E. revert Hx. generalize (names k). induction l as [|y l IH]; cbn; [tauto|].
    intros [->|Hx]; [now rewrite String.eqb_refl|]. rewrite IH by exact Hx. now destruct (String.eqb x y). }
  unfold names in IN. split; [lia|]. split; [|split; [|split]].
  - intros x v Hx. rewrite IN; [now apply H1|]. apply in_or_app. left.
    apply in_map_iff. exists (x, v). auto.
  - intros x f v Hx. destruct (H2 x f v Hx) as (c & fs & E1 & Q1 & Q2 & Q3 & Q4).
    exists c, fs. rewrite IN, M by (try assumption; apply in_or_app; right; apply in_or_app; left;
      apply in_map_iff; exists (x, f, v); auto).
    repeat split; try assumption; lia.
  - intros x l Hx. destruct (H3 x l Hx) as (c & a & E1 & Q1 & Q2 & Q3 & Q4).
    exists c, a. rewrite IN, M by (try assumption; apply in_or_app; right; apply in_or_app; right;
      apply in_or_app; left; apply in_map_iff; exists (x, l); auto).
    repeat split; try assumption; lia.
  - intros x n g Hx. destruct (H4 x n g Hx) as (c & a & E1 & Q1 & Q2 & Q3 & Q4).
    exists c, a. rewrite IN, M by (try assumption; apply in_or_app; right; apply in_or_app; right;
      apply in_or_app; right; apply in_map_iff; exists (x, (n, g)); auto).
    repeat split; try assumption; lia.
Qed.

Lemma free_ne x k y : free x k = true -> mems y (names k) = true -> String.eqb y x = false.
Proof.
  unfold free. intros F M. destruct (String.eqb_spec y x) as [->|]; [|reflexivity].
  rewrite M in F. discriminate.
Qed.

Lemma knows_set k s x v : knows k s -> free x k = true -> knows (add x v k) (set_env s x v).
Proof.
  intros K F.
  assert (K' : knows k (set_env s x v)).
  { eapply knows_mono; [exact K| |split; [cbn; lia|reflexivity]].
    intros y Hy. cbn. now rewrite (free_ne x k y F Hy). }
  destruct K' as (B & H1 & H2 & H3 & H4).
  split; [exact B|]. split; [|split; [|split]]; cbn; auto.
  intros y w [[= <- <-]|Hy]; [now rewrite String.eqb_refl|]. now apply H1.
Qed.
Lemma knows_drop k s x v : knows (add x v k) s -> knows k s.
Proof.
  intros (B & H1 & H2 & H3 & H4). split; [exact B|]. split; [|split; [|split]]; auto.
  intros y w Hy. apply H1. cbn. auto.
Qed.
Lemma knows_dropa k s x v : knows (adda x v k) s -> knows k s.
Proof.
  intros (B & H1 & H2 & H3 & H4). split; [exact B|]. split; [|split; [|split]]; auto.
  intros y w Hy. apply H3. cbn. auto.
Qed.

(** ** Evaluation from what is known *)
Fixpoint look {A} (x : string) (l : list (string * A)) : option A :=
  match l with [] => None | (y, v) :: l => if String.eqb x y then Some v else look x l end.
Fixpoint lookf (x f : string) (l : list (string * string * val)) : option val :=
  match l with
  | [] => None
  | (y, g, v) :: l => if (String.eqb x y && String.eqb f g)%bool then Some v else lookf x f l
  end.
Lemma look_in {A} x (l : list (string * A)) v : look x l = Some v -> In (x, v) l.
Proof.
  induction l as [|[y w] l IH]; cbn; [discriminate|].
  destruct (String.eqb_spec x y) as [->|]; [intros [= ->]; auto|auto].
Qed.
Lemma lookf_in x f l v : lookf x f l = Some v -> In (x, f, v) l.
Proof.
  induction l as [|[[y g] w] l IH]; cbn; [discriminate|].
  destruct (String.eqb_spec x y) as [->|]; cbn; [|auto].
  destruct (String.eqb_spec f g) as [->|]; [intros [= ->]; auto|auto].
Qed.

Definition kop (o : binop) (x y : Z) : option val :=
  match o with
  | Add => Some (VI (x + y)) | Sub => Some (VI (x - y)) | Mul => Some (VI (x * y))
  | Mod => Some (VI (Z.rem x y))
  | Lt => Some (ofb (x <? y)) | Gt => Some (ofb (y <? x)) | Eq => Some (ofb (x =? y))
  | _ => None
  end.

Fixpoint kval (k : kn) (e : exp) : option val :=
  match e with
  | EI z => Some (VI z)
  | EV x => look x (ki k)
  | EFld (EV x) f => lookf x f (kf k)
  | EIdx (EV x) i =>
      match kval k i with
      | Some (VI z) =>
          match look x (ka k) with
          | Some l => Some (VI (nth (Z.to_nat z) l 0))
          | None => match look x (kd k) with Some (_, g) => Some (VD (g z)) | None => None end
          end
      | _ => None
      end
  | EIdx2 n (EV x) i j =>
      match kval k i with
      | Some (VI z) => match kval k j with
          | Some (VI w) => match look x (ka k) with
              | Some l => Some (VI (nth (Z.to_nat (z * n + w)) l 0)) | None => None end
          | _ => None end
      | _ => None
      end
  | EAdr p i => match kval k p with
      | Some (VP c o) => match kval k i with Some (VI z) => Some (VP c (o + z)) | _ => None end
      | _ => None end
  | EBin o x y => match kval k x with
      | Some (VI z) => match kval k y with Some (VI w) => kop o z w | _ => None end
      | _ => None end
  | EDbl x => match kval k x with Some (VI z) => Some (VD (ofZ z)) | _ => None end
  | _ => None
  end.

(** side conditions of an evaluation *)
Fixpoint kok (k : kn) (e : exp) : list Prop :=
  match e with
  | EIdx (EV x) i =>
      (kok k i ++
      match kval k i with
      | Some (VI z) =>
          match look x (ka k) with
          | Some l => [0 <= z < Z.of_nat (List.length l)]
          | None => match look x (kd k) with Some (n, _) => [0 <= z < n] | None => [] end
          end
      | _ => []
      end)%list
  | EIdx2 n (EV x) i j =>
      (kok k i ++ kok k j ++
      match kval k i with
      | Some (VI z) => match kval k j with
          | Some (VI w) => match look x (ka k) with
              | Some l => [0 <= w < n; 0 <= z * n + w < Z.of_nat (List.length l)] | None => [] end
          | _ => [] end
      | _ => []
      end)%list
  | EAdr p i => (kok k p ++ kok k i)%list
  | EBin o x y => (kok k x ++ kok k y ++
      match o with Mod => match kval k y with Some (VI w) => [w <> 0] | _ => [] end | _ => [] end)%list
  | EDbl x => kok k x
  | _ => []
  end.
Fixpoint allp (l : list Prop) : Prop := match l with [] => True | [p] => p | p :: l => p /\ allp l end.
Lemma allp_cons p l : allp (p :: l) -> p /\ allp l.
Proof. destruct l; cbn; tauto. Qed.
Lemma allp_app l l' : allp (l ++ l')%list -> allp l /\ allp l'.
Proof.
  induction l as [|p l IH]; [cbn; auto|]. change ((p :: l) ++ l')%list with (p :: (l ++ l'))%list.
  intros H. apply allp_cons in H. destruct H as (H1 & H2). apply IH in H2. destruct H2 as (H2 & H3).
  split; [|exact H3]. destruct l; cbn; [exact H1|]. split; [exact H1 | exact H2].
Qed.

Lemma kval_ok k s e v : knows k s -> kval k e = Some v -> allp (kok k e) -> eval s e = Ok v.
Proof.
  intros K. pose proof K as (B & H1 & H2 & H3 & H4).
  revert v. induction e; intros v; cbn [kval kok eval].
  - now intros [= <-].
  - discriminate.
  - intros L _. apply look_in in L. now rewrite (H1 _ _ L).
  - discriminate.
  - destruct e; try discriminate. intros L _. apply lookf_in in L.
    destruct (H2 _ _ _ L) as (c & fs & E1 & Q1 & Q2 & Q3 & Q4).
    cbn [eval]. rewrite E1. cbn [of_option bind load_fld]. rewrite Q3, Q4. reflexivity.
  - destruct e1; try discriminate. intros L C. cbn [eval].
    destruct (kval k e2) as [u|]; [|discriminate]. destruct u as [z| | |]; try discriminate.
    apply allp_app in C. destruct C as (C2 & C). rewrite (IHe2 _ eq_refl C2). cbn [bind to_int].
    destruct (look x (ka k)) as [l|] eqn:L1.
    + apply look_in in L1. destruct (H3 _ _ L1) as (c & a & E1 & Q1 & Q2 & Q3 & Q4).
      rewrite E1. cbn [of_option bind load]. rewrite Q3. rewrite Z.add_0_l, Q4 by exact C.
      injection L as <-. reflexivity.
    + destruct (look x (kd k)) as [[n g]|] eqn:L2; [|discriminate].
      apply look_in in L2. destruct (H4 _ _ _ L2) as (c & a & E1 & Q1 & Q2 & Q3 & Q4).
      rewrite E1. cbn [of_option bind load]. rewrite Q3. rewrite Z.add_0_l, Q4 by exact C.
      injection L as <-. reflexivity.
  - destruct e1; try discriminate. intros L C. cbn [eval].
    destruct (kval k e2) as [u|]; [|discriminate]. destruct u as [z| | |]; try discriminate.
    destruct (kval k e3) as [u|]; [|discriminate]. destruct u as [q| | |]; try discriminate.
    apply allp_app in C. destruct C as (C2 & C). apply allp_app in C. destruct C as (C3 & C).
    rewrite (IHe2 _ eq_refl C2), (IHe3 _ eq_refl C3). cbn [bind to_int].
    destruct (look x (ka k)) as [l|] eqn:L1; [|discriminate].
    cbn [allp] in C. destruct C as ((Ca & Cb) & Cc).
    apply look_in in L1. destruct (H3 _ _ L1) as (c & a & E1 & Q1 & Q2 & Q3 & Q4).
    rewrite E1. cbn [of_option bind load].
    rewrite (proj2 (Z.leb_le _ _) Ca), (proj2 (Z.ltb_lt _ _) Cb). cbn [andb].
    rewrite Q3. rewrite Z.add_0_l, Q4 by exact Cc. injection L as <-. reflexivity.
  - discriminate.
  - discriminate.
  - intros L C. destruct (kval k e1) as [u|]; [|discriminate]. destruct u as [| |c o|]; try discriminate.
    destruct (kval k e2) as [u|]; [|discriminate]. destruct u as [z| | |]; try discriminate.
    apply allp_app in C. destruct C as (C1 & C2).
    rewrite (IHe1 _ eq_refl C1), (IHe2 _ eq_refl C2). cbn [bind to_int]. injection L as <-. reflexivity.
  - intros L C. destruct (kval k e1) as [u|]; [|discriminate]. destruct u as [z| | |]; try discriminate.
    destruct (kval k e2) as [u|]; [|discriminate]. destruct u as [w| | |]; try discriminate.
    apply allp_app in C. destruct C as (C1 & C). apply allp_app in C. destruct C as (C2 & C).
    rewrite (IHe1 _ eq_refl C1), (IHe2 _ eq_refl C2). cbn [bind bin_op].
    destruct o; cbn [kop] in L; try discriminate; injection L as <-; try reflexivity.
    cbn [int_op]. cbn [allp] in C. destruct (Z.eqb_spec w 0); [contradiction|reflexivity].
  - discriminate.
  - discriminate.
  - discriminate.
  - discriminate.
  - discriminate.
  - intros L C. destruct (kval k e) as [u|]; [|discriminate]. destruct u as [z| | |]; try discriminate.
    rewrite (IHe _ eq_refl C). injection L as <-. reflexivity.
Qed.

(** ** The judgement *)
Variable V : Type.
Variable O : arr V -> obj.
Variable step : arr V -> Z * V -> res (arr V).

(** from a state with knowledge [k], [c] does the steps [l] on the array *)
Definition emits (k : kn) (c : stmt) (l : list (Z * V)) : Prop :=
  forall s a, knows k s -> mem s b = Some (O a) ->
    goes c s (foldM step l a)
      (fun a' s' => knows k s' /\ ext s s' /\ mem s' b = Some (O a')).

Lemma emits_eq k c l l' : emits k c l -> l = l' -> emits k c l'.
Proof. now intros H <-. Qed.

Lemma emits_skip k : emits k SSkip [].
Proof. intros s a K M. exists s. split; [apply runs_skip|]. split; [exact K|]. split; [apply ext_refl | exact M]. Qed.

Lemma emits_seq k c d l1 l2 : emits k c l1 -> emits k d l2 -> emits k (SSeq c d) (l1 ++ l2)%list.
Proof.
  intros H1 H2 s a K M. rewrite foldM_app.
  eapply goes_seq; [exact (H1 s a K M)|]. intros a' s' (K' & E' & M').
  eapply goes_weak; [exact (H2 s' a' K' M')|]. intros a2 s2 (K2 & E2 & M2).
  split; [exact K2|]. split; [eapply ext_trans; eauto | exact M2].
Qed.

(** x = e; d *)
Lemma emits_set k x e v d l :
  kval k e = Some v -> allp (kok k e) -> free x k = true ->
  emits (add x v k) d l -> emits k (SSeq (SSet x e) d) l.
Proof.
  intros E C F H s a K M. eapply goes_pre; [apply runs_set, (kval_ok k s e v K E C)|].
  eapply goes_weak; [apply H; [now apply knows_set | exact M]|].
  intros a' s' (K' & E' & M'). split; [eapply knows_drop; exact K'|]. split; [exact E' | exact M'].
Qed.

(** int x[] = { es }; d *)
Lemma fill_ok (l : list Z) : forall p (a : arr Z),
  alen a = Z.of_nat (List.length (p ++ l)) ->
  (forall j, 0 <= j < Z.of_nat (List.length p) -> rd a j = Ok (nth (Z.to_nat j) p 0)) ->
  exists a', fill a (Z.of_nat (List.length p)) l = Ok a' /\
    forall j, 0 <= j < Z.of_nat (List.length (p ++ l)) -> rd a' j = Ok (nth (Z.to_nat j) (p ++ l) 0).
Proof.
  induction l as [|v l IH]; intros p a L H.
  - exists a. split; [reflexivity|]. rewrite app_nil_r. exact H.
  - cbn [fill].
    assert (R : 0 <= Z.of_nat (List.length p) < alen a).
    { rewrite L, app_length. cbn [List.length]. lia. }
    destruct (wr a (Z.of_nat (List.length p)) v) as [a1|w] eqn:W.
    2:{ unfold wr in W. rewrite (proj2 (inb_spec a _) R) in W. discriminate. }
    cbn [bind]. pose proof (wr_inv _ _ _ _ W) as (_ & L1 & G).
    destruct (IH (p ++ [v])%list a1) as (a' & F & Q).
    + rewrite L1, L. rewrite <- app_assoc. reflexivity.
    + intros j Hj. rewrite app_length in Hj. cbn [List.length] in Hj.
      destruct (Z.eq_dec j (Z.of_nat (List.length p))) as [->|NE].
      * rewrite (rd_wr _ _ _ _ W). rewrite Nat2Z.id, app_nth2 by lia. now rewrite Nat.sub_diag.
      * specialize (G j). specialize (H j ltac:(lia)). unfold rd in *.
        assert (IB : inb a1 j = inb a j) by (unfold inb; now rewrite L1).
        unfold aget in G. rewrite IB in *. destruct (inb a j); [|discriminate].
        rewrite (proj2 (Z.eqb_neq j _) NE) in G. rewrite G, app_nth1 by lia. exact H.
    + exists a'. rewrite <- app_assoc in Q. cbn [app] in Q. split; [|exact Q].
      rewrite <- F. f_equal. rewrite app_length. cbn [List.length]. lia.
Qed.

Fixpoint kvals (k : kn) (es : list exp) : option (list Z) :=
  match es with
  | [] => Some []
  | e :: es => match kval k e with
      | Some (VI z) => match kvals k es with Some l => Some (z :: l) | None => None end
      | _ => None end
  end.
Fixpoint koks (k : kn) (es : list exp) : list Prop :=
  match es with [] => [] | e :: es => (kok k e ++ koks k es)%list end.
Lemma kvals_ok k s es l : knows k s -> kvals k es = Some l -> allp (koks k es) ->
  mapM (fun e => v <- eval s e ;; to_int v) es = Ok l.
Proof.
  intros K. revert l. induction es as [|e es IH]; intros l; cbn [kvals koks mapM].
  - now intros [= <-].
  - destruct (kval k e) as [u|] eqn:E; [|discriminate]. destruct u as [z| | |]; try discriminate.
    destruct (kvals k es) as [l0|]; [|discriminate]. intros [= <-] C. apply allp_app in C.
    destruct C as (C1 & C2). rewrite (kval_ok k s e _ K E C1). cbn [bind to_int].
    now rewrite (IH l0 eq_refl C2).
Qed.

Lemma emits_arr k x es l0 d l :
  kvals k es = Some l0 -> allp (koks k es) -> free x k = true ->
  emits (adda x l0 k) d l -> emits k (SSeq (SArr x es) d) l.
Proof.
  intros E C F H s a K M. pose proof K as (B & _).
  destruct (fill_ok l0 [] (malloc (Z.of_nat (List.length l0)))) as (ar & Fi & Q).
  { reflexivity. } { cbn. intros j Hj. lia. }
  set (s1 := alloc s x (OI ar)).
  assert (R : runs (SArr x es) s (Ok (s1, Nrm))).
  { exists 1%nat. intros [|n] Hn; [lia|]. cbn [exec]. rewrite (kvals_ok k s es l0 K E C). cbn [bind].
    change (Z.of_nat (List.length (@nil Z))) with 0 in Fi. rewrite Fi. reflexivity. }
  assert (EX : ext s s1).
  { split; [cbn; lia|]. intros c L _. cbn. destruct (Z.eqb_spec c (nxt s)); [lia|reflexivity]. }
  assert (K1 : knows (adda x l0 k) s1).
  { assert (K' : knows k s1).
    { eapply knows_mono; [exact K| |exact EX]. intros y Hy. cbn. now rewrite (free_ne x k y F Hy). }
    destruct K' as (B' & H1 & H2 & H3 & H4). split; [exact B'|]. split; [exact H1|]. split; [exact H2|].
    split; [|exact H4]. cbn [ka adda]. intros y w [[= <- <-]|Hy]; [|now apply H3].
    exists (nxt s), ar. split; [cbn; now rewrite String.eqb_refl|]. split; [lia|]. split; [cbn; lia|].
    split; [cbn; now rewrite Z.eqb_refl|]. exact Q. }
  eapply goes_pre; [exact R|]. eapply goes_weak.
  - apply H; [exact K1|]. cbn. destruct (Z.eqb_spec b (nxt s)); [lia|exact M].
  - intros a' s' (K' & E' & M'). split; [eapply knows_dropa; exact K'|].
    split; [eapply ext_trans; eauto | exact M'].
Qed.

(** for (int x = lo; x < hi; x++) body *)
Lemma emits_for k x lo hi body (f : Z -> list (Z * V)) l n :
  kval k lo = Some (VI l) -> kval k hi = Some (VI n) -> allp (kok k lo) -> allp (kok k hi) ->
  free x k = true ->
  (forall i, l <= i < n -> emits (add x (VI i) k) body (f i)) ->
  emits k (SFor x lo (EBin Lt (EV x) hi) body) (flat_map f (zrange l n)).
Proof.
  intros E1 E2 C1 C2 F H s a K M. unfold SFor.
  eapply goes_pre; [apply runs_set, (kval_ok k s lo _ K E1 C1)|].
  rewrite foldM_flat. eapply goes_weak.
  - apply (goes_while P x hi body (fun i a' s' =>
      knows (add x (VI i) k) s' /\ ext s s' /\ mem s' b = Some (O a'))).
    + intros i a' s' (K' & _). split.
      * eapply kval_ok; [eapply knows_drop; exact K' | exact E2 | exact C2].
      * destruct K' as (_ & H1 & _). apply H1. left. reflexivity.
    + intros i a' s' Hi (K' & E' & M'). eapply goes_weak; [apply (H i Hi s' a' K' M')|].
      intros a2 s2 (K2 & X2 & M2). split.
      * destruct K2 as (_ & H1 & _). apply H1. left. reflexivity.
      * split; [|split; [eapply ext_trans; eauto | exact M2]].
        eapply knows_set; [eapply knows_drop; exact K2 | exact F].
    + split; [now apply knows_set|]. split; [split; [cbn; lia|reflexivity] | exact M].
  - intros a' s' (K' & E' & M'). split; [eapply knows_drop; exact K'|]. split; [exact E' | exact M'].
Qed.

(** int y = e0; for (int x = 0; x < hi; x++) { c; y += d; } *)
Lemma emits_carry k x y e0 hi c ed (f : Z -> list (Z * V)) y0 n d :
  kval k e0 = Some (VI y0) -> kval k hi = Some (VI n) -> kval k ed = Some (VI d) ->
  allp (kok k e0) -> allp (kok k hi) -> allp (kok k ed) ->
  free x k = true -> free y k = true -> String.eqb y x = false ->
  (forall i, 0 <= i < n -> emits (add x (VI i) (add y (VI (y0 + i * d)) k)) c (f i)) ->
  emits k (SSeq (SSet y e0) (SFor x (EI 0) (EBin Lt (EV x) hi)
             (SSeq c (SSet y (EBin Add (EV y) ed))))) (flat_map f (zrange 0 n)).
Proof.
  intros E0 E1 E2 C0 C1 C2 F1 F2 N H s a K M. unfold SFor.
  assert (FX : forall v, free x (add y v k) = true).
  { intros v. unfold free in *. cbn [names add ki map fst mems app].
    rewrite String.eqb_sym in N. cbn [ki kf ka kd mems app]. rewrite N. exact F1. }
  eapply goes_pre; [apply runs_set, (kval_ok k s e0 _ K E0 C0)|].
  eapply goes_pre; [apply runs_set; reflexivity|].
  rewrite foldM_flat. eapply goes_weak.
  - apply (goes_while P x hi _ (fun i a' s' =>
      knows (add x (VI i) (add y (VI (y0 + i * d)) k)) s' /\ ext s s' /\ mem s' b = Some (O a'))).
    + intros i a' s' (K' & _). split.
      * eapply kval_ok; [eapply knows_drop, knows_drop; exact K' | exact E1 | exact C1].
      * destruct K' as (_ & H1 & _). apply H1. left. reflexivity.
    + intros i a' s' Hi (K' & E' & M').
      replace (foldM step (f i) a') with (a2 <- foldM step (f i) a' ;; Ok a2) by (now destruct (foldM step (f i) a')).
      eapply goes_seq; [apply (H i Hi s' a' K' M')|].
      intros a2 s2 (K2 & X2 & M2). cbn [CliteRules.goes].
      pose proof K2 as (_ & H1 & _).
      assert (Ey : env s2 y = Some (VI (y0 + i * d))) by (apply H1; cbn; auto).
      assert (Ex : env s2 x = Some (VI i)) by (apply H1; cbn; auto).
      assert (K3 : knows k s2) by (eapply knows_drop, knows_drop; exact K2).
      exists (set_env s2 y (VI (y0 + i * d + d))). split.
      * apply runs_set. cbn [eval]. rewrite Ey. cbn [of_option bind].
        rewrite (kval_ok k s2 ed _ K3 E2 C2). reflexivity.
      * split; [cbn [env set_env]; rewrite String.eqb_sym, N; exact Ex|].
        split; [|split; [eapply ext_trans; eauto | exact M2]].
        apply knows_set; [|apply FX].
        replace (y0 + (i + 1) * d) with (y0 + i * d + d) by ring.
        now apply knows_set.
    + split; [|split; [split; [cbn; lia|reflexivity] | exact M]].
      apply knows_set; [|apply FX]. replace (y0 + 0 * d) with y0 by ring. now apply knows_set.
  - intros a' s' (K' & E' & M'). split; [eapply knows_drop, knows_drop; exact K'|]. split; [exact E' | exact M'].
Qed.

Lemma emits_if k e t c1 c2 l1 l2 :
  kval k e = Some (ofb t) -> allp (kok k e) ->
  (t = true -> emits k c1 l1) -> (t = false -> emits k c2 l2) ->
  emits k (SIf e c1 c2) (if t then l1 else l2).
Proof.
  intros E C H1 H2 s a K M.
  assert (R : forall r, runs (if t then c1 else c2) s r -> runs (SIf e c1 c2) s r).
  { intros r. eapply runs_if; [exact (kval_ok k s e _ K E C)|]. now destruct t. }
  assert (G : goes (if t then c1 else c2) s (foldM step (if t then l1 else l2) a)
      (fun a' s' => knows k s' /\ ext s s' /\ mem s' b = Some (O a'))).
  { destruct t; [apply H1 | apply H2]; auto. }
  destruct (foldM step (if t then l1 else l2) a); cbn [CliteRules.goes] in *.
  - destruct G as (s' & R' & Q). exists s'. auto.
  - destruct G as (w & R'). exists w. auto.
Qed.

(** a store *)
Definition storing : Prop := forall k p i e s a o z, knows k s -> mem s b = Some (O a) ->
  forall w t, kval k p = Some (VP b o) -> kval k i = Some (VI z) -> kval k e = Some w ->
  allp (kok k p) -> allp (kok k i) -> allp (kok k e) ->
  forall cv : val -> option V, (forall v u, cv v = Some u -> forall a o i, 
     match wr a (o + i) u with
     | Ok a' => forall s, mem s b = Some (O a) -> store s (VP b o) i v = Ok (set_mem s b (Some (O a')))
     | Err e => forall s, mem s b = Some (O a) -> store s (VP b o) i v = Err e
     end) -> cv w = Some t ->
  step a (o + z, t) = wr a (o + z) t ->
  goes (SStore p i e) s (step a (o + z, t)) (fun a' s' => knows k s' /\ ext s s' /\ mem s' b = Some (O a')).
Lemma stores : storing.
Proof.
  intros k p i e s a o z K M w t Ep Ei Ee Cp Ci Ce cv CV Cw ST. rewrite ST.
  specialize (CV w t Cw a o z).
  assert (X : forall n, exec P (S n) (SStore p i e) s = (s1 <- store s (VP b o) z w ;; Ok (s1, Nrm))).
  { intros n. cbn [exec]. rewrite (kval_ok k s p _ K Ep Cp), (kval_ok k s i _ K Ei Ci). cbn [bind to_int].
    rewrite (kval_ok k s e _ K Ee Ce). reflexivity. }
  destruct (wr a (o + z) t) as [a'|w'] eqn:W; cbn [CliteRules.goes].
  - exists (set_mem s b (Some (O a'))). split.
    + exists 1%nat. intros [|n] Hn; [lia|]. rewrite X, (CV s M). reflexivity.
    + assert (EX : ext s (set_mem s b (Some (O a')))).
      { split; [cbn; lia|]. intros c _ Hc. cbn. destruct (Z.eqb_spec c b); [contradiction|reflexivity]. }
      split; [|split; [exact EX | cbn; now rewrite Z.eqb_refl]].
      eapply knows_mono; [exact K | reflexivity | exact EX].
  - exists w'. exists 1%nat. intros [|n] Hn; [lia|]. rewrite X, (CV s M). reflexivity.
Qed.

End Emit.

(** ** Arrays of double and of int *)
Section Kinds.
Context {T : Type} `{OT : Ops T}.
Variable P : string -> option fdef.
Notation val := (@val T).

Definition wstep {V} (a : arr V) (w : Z * V) : res (arr V) := wr a (fst w) (snd w).
Definition astep (a : arr T) (w : Z * T) : res (arr T) := v <- rd a (fst w) ;; wr a (fst w) (oadd v (snd w)).

Definition cd (v : val) : option T := match v with VI z => Some (ofZ z) | VD t => Some t | _ => None end.
Definition ci (v : val) : option Z := match v with VI z => Some z | _ => None end.

Lemma emits_store_d b k p i e o z w t :
  kval k p = Some (VP b o) -> kval k i = Some (VI z) -> kval k e = Some w -> cd w = Some t ->
  allp (kok k p) -> allp (kok k i) -> allp (kok k e) ->
  emits P b T OD wstep k (SStore p i e) [(o + z, t)].
Proof.
  intros E1 E2 E3 E4 C1 C2 C3 s a K M. cbn [foldM].
  replace (bind (wstep a (o + z, t)) (fun x => Ok x)) with (wstep a (o + z, t)) by (now destruct (wstep a (o + z, t))).
  apply (stores P b T OD wstep) with (cv := cd) (w := w); try assumption; [|reflexivity].
  intros v u Hv a1 o1 i1. unfold store.
  destruct v; try discriminate Hv; injection Hv as <-;
    destruct (wr a1 (o1 + i1) _) as [a'|q] eqn:W; intros s0 ->; cbn [to_dbl bind]; rewrite W; reflexivity.
Qed.
Lemma emits_store_i b k p i e o z w t :
  kval k p = Some (VP b o) -> kval k i = Some (VI z) -> kval k e = Some w -> ci w = Some t ->
  allp (kok k p) -> allp (kok k i) -> allp (kok k e) ->
  emits P b Z OI wstep k (SStore p i e) [(o + z, t)].
Proof.
  intros E1 E2 E3 E4 C1 C2 C3 s a K M. cbn [foldM].
  replace (bind (wstep a (o + z, t)) (fun x => Ok x)) with (wstep a (o + z, t)) by (now destruct (wstep a (o + z, t))).
  apply (stores P b Z OI wstep) with (cv := ci) (w := w); try assumption; [|reflexivity].
  intros v u Hv a1 o1 i1. unfold store.
  destruct v; try discriminate Hv; injection Hv as <-;
    destruct (wr a1 (o1 + i1) _) as [a'|q] eqn:W; intros s0 ->; cbn [to_int bind]; rewrite W; reflexivity.
Qed.

(** p[i] += e *)
Lemma emits_add_d b k p i e o z t :
  kval k p = Some (VP b o) -> kval k i = Some (VI z) -> kval k e = Some (VD t) ->
  allp (kok k p) -> allp (kok k i) -> allp (kok k e) ->
  emits P b T OD astep k (SStore p i (EBin Add (EIdx p i) e)) [(o + z, t)].
Proof.
  intros E1 E2 E3 C1 C2 C3 s a K M. cbn [foldM].
  replace (bind (astep a (o + z, t)) (fun x => Ok x)) with (astep a (o + z, t)) by (now destruct (astep a (o + z, t))).
  unfold astep. cbn [fst snd].
  pose proof (kval_ok b k s p _ K E1 C1) as V1. pose proof (kval_ok b k s i _ K E2 C2) as V2.
  pose proof (kval_ok b k s e _ K E3 C3) as V3.
  destruct (rd a (o + z)) as [v|w] eqn:R; cbn [bind].
  2:{ exists w. exists 1%nat. intros [|n] Hn; [lia|]. cbn [exec eval]. rewrite V1, V2. cbn [bind to_int load].
      rewrite M, R. reflexivity. }
  assert (X : forall n, exec P (S n) (SStore p i (EBin Add (EIdx p i) e)) s =
     (a' <- wr a (o + z) (oadd v t) ;; Ok (set_mem s b (Some (OD a')), Nrm))).
  { intros n. cbn [exec eval]. rewrite V1, V2. cbn [bind to_int load]. rewrite M, R. cbn [bind]. rewrite V3.
    cbn [bind bin_op to_dbl dbl_op store]. rewrite M. cbn [bind to_dbl].
    destruct (wr a (o + z) (oadd v t)); reflexivity. }
  destruct (wr a (o + z) (oadd v t)) as [a'|w] eqn:W; cbn [CliteRules.goes].
  - exists (set_mem s b (Some (OD a'))). split; [exists 1%nat; intros [|n] Hn; [lia|]; apply X|].
    assert (EX : ext b s (set_mem s b (Some (OD a')))).
    { split; [cbn; lia|]. intros c _ Hc. cbn. destruct (Z.eqb_spec c b); [contradiction|reflexivity]. }
    split; [|split; [exact EX | cbn; now rewrite Z.eqb_refl]].
    eapply (knows_mono P); [exact K | reflexivity | exact EX].
  - exists w. exists 1%nat. intros [|n] Hn; [lia|]. apply X.
Qed.

(** several stores through one pointer variable *)
Fixpoint line_i (k : kn) (x : string) (o : Z) (c : stmt) : option (list (Z * Z)) :=
  match c with
  | SStore (EV y) i e =>
      if String.eqb x y then
        match kval k i with
        | Some (VI z) => match kval k e with Some (VI w) => Some [(o + z, w)] | _ => None end
        | _ => None end
      else None
  | SSeq c d => match line_i k x o c with
      | Some l => match line_i k x o d with Some l' => Some (l ++ l')%list | None => None end
      | None => None end
  | _ => None
  end.
Fixpoint line_ok (k : kn) (c : stmt) : list Prop :=
  match c with
  | SStore _ i e => (kok k i ++ kok k e)%list
  | SSeq c d => (line_ok k c ++ line_ok k d)%list
  | _ => []
  end.
Lemma emits_line b k x o c l :
  kval k (EV x) = Some (VP b o) -> line_i k x o c = Some l -> allp (line_ok k c) ->
  emits P b Z OI wstep k c l.
Proof.
  intros E. revert l. induction c; intros l; cbn [line_i line_ok]; try discriminate.
  - destruct (line_i k x o c1) as [l1|]; [|discriminate]. destruct (line_i k x o c2) as [l2|]; [|discriminate].
    intros [= <-] C. apply allp_app in C. destruct C as (C1 & C2). apply emits_seq; auto.
  - destruct p; try discriminate. destruct (String.eqb_spec x x0) as [<-|]; [|discriminate].
    destruct (kval k i) as [u|] eqn:E2; [|discriminate]. destruct u as [z| | |]; try discriminate.
    destruct (kval k e) as [u|] eqn:E3; [|discriminate]. destruct u as [w| | |]; try discriminate.
    intros [= <-] C. apply allp_app in C. destruct C as (C1 & C2).
    eapply emits_store_i; eauto; try reflexivity.
Qed.

End Kinds.
