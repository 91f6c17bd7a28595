(** Rules for running the syntax trees of Clite.v: how the statements compose, and how a
    loop of the source corresponds to a fold of the model (src/ell.cpp throughout). *)
From Coq Require Import String.
From Verif Require Import Base Scalar Clite.
From Coq Require Import FMapPositive.
Local Open Scope string_scope.
Local Open Scope Z_scope.

Lemma foldM_flat {S A B} (f : S -> B -> res S) (g : A -> list B) l s :
  foldM f (flat_map g l) s = foldM (fun s x => foldM f (g x) s) l s.
Proof.
  revert s. induction l as [|x l IH]; intros s; cbn; [reflexivity|].
  rewrite foldM_app. destruct (foldM f (g x) s); cbn; [apply IH | reflexivity].
Qed.
Lemma padd2 {A} (i : positive) (v w : A) m :
  PositiveMap.add i v (PositiveMap.add i w m) = PositiveMap.add i v m.
Proof. revert m. induction i; intros [|l o r]; cbn; f_equal; auto. Qed.

Lemma wr_wr {A} (a a1 : arr A) i v w : wr a i v = Ok a1 -> wr a1 i w = wr a i w.
Proof.
  unfold wr. destruct (inb a i) eqn:E; [|discriminate]. intros [= <-].
  unfold inb in *. cbn [alen acells]. rewrite E. now rewrite padd2.
Qed.

Lemma wr_err {A} (a : arr A) i v w e : wr a i v = Err e -> wr a i w = Err e.
Proof. unfold wr. now destruct (inb a i). Qed.

Lemma rd_wr {A} (a a1 : arr A) i v : wr a i v = Ok a1 -> rd a1 i = Ok v.
Proof.
  intros H. apply rd_ok. apply wr_inv in H. destruct H as (_ & _ & G).
  now rewrite G, Z.eqb_refl.
Qed.

(** membership in a list of names *)
Fixpoint mems (x : string) (l : list string) : bool :=
  match l with [] => false | y :: l => if String.eqb x y then true else mems x l end.

Section Rules.
Context {T : Type} `{OT : Ops T}.
Variable P : string -> option fdef.
Notation state := (@state T).
Notation val := (@val T).
Notation runs := (runs P).
Notation exec := (exec P).

Lemma runs_skip (s : state) : runs SSkip s (Ok (s, Nrm)).
Proof. exists 1%nat. intros [|n] L; [lia|reflexivity]. Qed.
Lemma runs_break (s : state) : runs SBreak s (Ok (s, Brk)).
Proof. exists 1%nat. intros [|n] L; [lia|reflexivity]. Qed.

Lemma runs_seq a b (s s1 : state) r :
  runs a s (Ok (s1, Nrm)) -> runs b s1 r -> runs (SSeq a b) s r.
Proof.
  intros (n & Hn) (m & Hm). exists (S (n + m))%nat. intros [|k] L; [lia|]. cbn [Clite.exec].
  rewrite Hn by lia. cbn. apply Hm. lia.
Qed.
Lemma runs_seq_stop a b (s s1 : state) g :
  runs a s (Ok (s1, g)) -> g <> Nrm -> runs (SSeq a b) s (Ok (s1, g)).
Proof.
  intros (n & Hn) G. exists (S n)%nat. intros [|k] L; [lia|]. cbn [Clite.exec].
  rewrite Hn by lia. cbn. destruct g; [congruence|reflexivity|reflexivity].
Qed.
Lemma runs_seq_err a b (s : state) e : runs a s (Err e) -> runs (SSeq a b) s (Err e).
Proof.
  intros (n & Hn). exists (S n)%nat. intros [|k] L; [lia|]. cbn [Clite.exec].
  rewrite Hn by lia. reflexivity.
Qed.
Lemma runs_set x e (s : state) v : eval s e = Ok v -> runs (SSet x e) s (Ok (set_env s x v, Nrm)).
Proof. intros E. exists 1%nat. intros [|k] L; [lia|]. cbn [Clite.exec]. now rewrite E. Qed.
Lemma runs_set_err x e (s : state) w : eval s e = Err w -> runs (SSet x e) s (Err w).
Proof. intros E. exists 1%nat. intros [|k] L; [lia|]. cbn [Clite.exec]. now rewrite E. Qed.
Lemma runs_ret e (s : state) v : eval s e = Ok v -> runs (SRet e) s (Ok (s, Ret v)).
Proof. intros E. exists 1%nat. intros [|k] L; [lia|]. cbn [Clite.exec]. now rewrite E. Qed.
Lemma runs_if c a b (s : state) v t r :
  eval s c = Ok v -> truth v = Ok t -> runs (if t then a else b) s r -> runs (SIf c a b) s r.
Proof.
  intros E V (n & Hn). exists (S n). intros [|k] L; [lia|]. cbn [Clite.exec]. rewrite E. cbn.
  rewrite V. cbn. destruct t; apply Hn; lia.
Qed.
Lemma runs_if_err c a b (s : state) w : eval s c = Err w -> runs (SIf c a b) s (Err w).
Proof. intros E. exists 1%nat. intros [|k] L; [lia|]. cbn [Clite.exec]. now rewrite E. Qed.
Lemma runs_store p i e (s : state) b o k w a t a' :
  eval s p = Ok (VP b o) -> eval s i = Ok (VI k) -> eval s e = Ok w -> to_dbl w = Ok t ->
  mem s b = Some (OD a) -> wr a (o + k) t = Ok a' ->
  runs (SStore p i e) s (Ok (set_mem s b (Some (OD a')), Nrm)).
Proof.
  intros E1 E2 E3 D M W. exists 1%nat. intros [|n] L; [lia|]. cbn [Clite.exec].
  rewrite E1, E2, E3. cbn [bind to_int]. unfold store. rewrite M, D. cbn [bind]. now rewrite W.
Qed.
Lemma runs_store_err p i e (s : state) b o k a w :
  eval s p = Ok (VP b o) -> eval s i = Ok (VI k) -> mem s b = Some (OD a) ->
  match eval s e with
  | Err x => w = x
  | Ok v => exists t, to_dbl v = Ok t /\ wr a (o + k) t = Err w
  end -> runs (SStore p i e) s (Err w).
Proof.
  intros E1 E2 M H. exists 1%nat. intros [|n] L; [lia|]. cbn [Clite.exec].
  rewrite E1, E2. cbn [bind to_int]. destruct (eval s e) as [v|x]; cbn [bind].
  - destruct H as (t & D & W). unfold store. rewrite M, D. cbn [bind]. now rewrite W.
  - now subst.
Qed.

Lemma runs_while_stop c b st (s : state) v :
  eval s c = Ok v -> truth v = Ok false -> runs (SWhile c b st) s (Ok (s, Nrm)).
Proof.
  intros E V. exists 1%nat. intros [|k] L; [lia|]. cbn [Clite.exec]. rewrite E. cbn.
  now rewrite V.
Qed.
Lemma runs_while_go c b st (s s1 s2 : state) v r :
  eval s c = Ok v -> truth v = Ok true -> runs b s (Ok (s1, Nrm)) -> runs st s1 (Ok (s2, Nrm)) ->
  runs (SWhile c b st) s2 r -> runs (SWhile c b st) s r.
Proof.
  intros E V (n & Hn) (m & Hm) (l & Hl). exists (S (n + m + l)). intros [|k] L; [lia|].
  cbn [Clite.exec]. rewrite E. cbn. rewrite V. cbn. rewrite Hn by lia. cbn.
  rewrite Hm by lia. cbn. apply Hl. lia.
Qed.
Lemma runs_while_break c b st (s s1 : state) v :
  eval s c = Ok v -> truth v = Ok true -> runs b s (Ok (s1, Brk)) ->
  runs (SWhile c b st) s (Ok (s1, Nrm)).
Proof.
  intros E V (n & Hn). exists (S n). intros [|k] L; [lia|].
  cbn [Clite.exec]. rewrite E. cbn. rewrite V. cbn. rewrite Hn by lia. reflexivity.
Qed.
Lemma runs_while_err c b st (s : state) v e :
  eval s c = Ok v -> truth v = Ok true -> runs b s (Err e) -> runs (SWhile c b st) s (Err e).
Proof.
  intros E V (n & Hn). exists (S n). intros [|k] L; [lia|].
  cbn [Clite.exec]. rewrite E. cbn. rewrite V. cbn. rewrite Hn by lia. reflexivity.
Qed.
Lemma runs_do_go b c (s s1 : state) v r :
  runs b s (Ok (s1, Nrm)) -> eval s1 c = Ok v -> truth v = Ok true ->
  runs (SDo b c) s1 r -> runs (SDo b c) s r.
Proof.
  intros (n & Hn) E V (m & Hm). exists (S (n + m)). intros [|k] L; [lia|].
  cbn [Clite.exec]. rewrite Hn by lia. cbn. rewrite E. cbn. rewrite V. cbn. apply Hm. lia.
Qed.
Lemma runs_do_stop b c (s s1 : state) v :
  runs b s (Ok (s1, Nrm)) -> eval s1 c = Ok v -> truth v = Ok false ->
  runs (SDo b c) s (Ok (s1, Nrm)).
Proof.
  intros (n & Hn) E V. exists (S n). intros [|k] L; [lia|].
  cbn [Clite.exec]. rewrite Hn by lia. cbn. rewrite E. cbn. now rewrite V.
Qed.
Lemma runs_do_break b c (s s1 : state) :
  runs b s (Ok (s1, Brk)) -> runs (SDo b c) s (Ok (s1, Nrm)).
Proof.
  intros (n & Hn). exists (S n). intros [|k] L; [lia|].
  cbn [Clite.exec]. rewrite Hn by lia. reflexivity.
Qed.
Lemma runs_do_err b c (s : state) e : runs b s (Err e) -> runs (SDo b c) s (Err e).
Proof.
  intros (n & Hn). exists (S n). intros [|k] L; [lia|].
  cbn [Clite.exec]. rewrite Hn by lia. reflexivity.
Qed.
Lemma runs_malloc x t e (s : state) k :
  eval s e = Ok (VI k) ->
  runs (SMalloc x t e) s
    (Ok (alloc s x (match t with TInt => OI (malloc k) | TDbl => OD (malloc k) end), Nrm)).
Proof. intros E. exists 1%nat. intros [|n] L; [lia|]. cbn [Clite.exec]. now rewrite E. Qed.
Lemma runs_free p (s : state) b o :
  eval s p = Ok (VP b 0) -> mem s b = Some o -> runs (SFree p) s (Ok (set_mem s b None, Nrm)).
Proof. intros E M. exists 1%nat. intros [|n] L; [lia|]. cbn [Clite.exec]. rewrite E. cbn. now rewrite M. Qed.
Lemma runs_fld p f e (s : state) b fs v w :
  eval s p = Ok (VP b 0) -> eval s e = Ok w -> mem s b = Some (OS fs) -> fget fs f = Some v ->
  runs (SFld p f e) s (Ok (set_mem s b (Some (OS (fset fs f w))), Nrm)).
Proof.
  intros E1 E2 M F. exists 1%nat. intros [|n] L; [lia|]. cbn [Clite.exec]. rewrite E1, E2.
  cbn [bind]. unfold store_fld. now rewrite M, F.
Qed.
Lemma runs_fld_err p f e (s : state) b w :
  eval s p = Ok b -> eval s e = Err w -> runs (SFld p f e) s (Err w).
Proof. intros E1 E2. exists 1%nat. intros [|n] L; [lia|]. cbn [Clite.exec]. now rewrite E1, E2. Qed.
Lemma runs_call f args (s : state) d vs e s1 g :
  P f = Some d -> mapM (eval s) args = Ok vs -> bindp (f_params d) vs (fun _ => None) = Ok e ->
  runs (f_body d) (mkSt e (mem s) (nxt s)) (Ok (s1, g)) -> g <> Brk ->
  runs (SCall f args) s (Ok (mkSt (env s) (mem s1) (nxt s1), Nrm)).
Proof.
  intros Pf A B (n & Hn) G. exists (S n). intros [|k] L; [lia|]. cbn [Clite.exec].
  rewrite Pf. cbn [of_option bind]. rewrite A. cbn [bind]. rewrite B. cbn [bind].
  rewrite Hn by lia. cbn [bind]. destruct g; [reflexivity|congruence|reflexivity].
Qed.
Lemma runs_call_err f args (s : state) d vs e w :
  P f = Some d -> mapM (eval s) args = Ok vs -> bindp (f_params d) vs (fun _ => None) = Ok e ->
  runs (f_body d) (mkSt e (mem s) (nxt s)) (Err w) -> runs (SCall f args) s (Err w).
Proof.
  intros Pf A B (n & Hn). exists (S n). intros [|k] L; [lia|]. cbn [Clite.exec].
  rewrite Pf. cbn [of_option bind]. rewrite A. cbn [bind]. rewrite B. cbn [bind].
  rewrite Hn by lia. reflexivity.
Qed.

(** ** Agreement with an outcome of the model: the same value, or an error in both *)
Definition goes {A} (c : stmt) (s : state) (m : res A) (Q : A -> state -> Prop) : Prop :=
  match m with
  | Ok a => exists s', runs c s (Ok (s', Nrm)) /\ Q a s'
  | Err _ => exists e, runs c s (Err e)
  end.

Lemma goes_weak {A} c s (m : res A) (Q Q' : A -> state -> Prop) :
  goes c s m Q -> (forall a s', Q a s' -> Q' a s') -> goes c s m Q'.
Proof. destruct m; cbn; [|auto]. intros (s' & R & H) W. eauto. Qed.

Lemma goes_seq {A B} c d s (m : res A) (k : A -> res B) Q Q' :
  goes c s m Q -> (forall a s', Q a s' -> goes d s' (k a) Q') -> goes (SSeq c d) s (bind m k) Q'.
Proof.
  destruct m as [a|e]; cbn [goes bind].
  - intros (s1 & R & H) W. specialize (W a s1 H). destruct (k a) as [b|e]; cbn [goes] in *.
    + destruct W as (s2 & R2 & H2). exists s2. split; [|exact H2]. eapply runs_seq; eauto.
    + destruct W as (w & R2). exists w. eapply runs_seq; eauto.
  - intros (w & R) _. exists w. now apply runs_seq_err.
Qed.

(** a statement that only prepares *)
Lemma goes_pre {B} c d s s1 (m : res B) Q :
  runs c s (Ok (s1, Nrm)) -> goes d s1 m Q -> goes (SSeq c d) s m Q.
Proof.
  intros R. destruct m; cbn [goes].
  - intros (s2 & R2 & H). exists s2. split; [|exact H]. eapply runs_seq; eauto.
  - intros (w & R2). exists w. eapply runs_seq; eauto.
Qed.
Lemma goes_post {B} c d s (m : res B) Q (Q' : B -> state -> Prop) :
  goes c s m Q -> (forall a s', Q a s' -> exists s2, runs d s' (Ok (s2, Nrm)) /\ Q' a s2) ->
  goes (SSeq c d) s m Q'.
Proof.
  destruct m; cbn [goes].
  - intros (s1 & R & H) W. destruct (W _ _ H) as (s2 & R2 & H2). exists s2. split; [|exact H2].
    eapply runs_seq; eauto.
  - intros (w & R) _. exists w. now apply runs_seq_err.
Qed.

(** evaluation of a double against the model's value *)
Definition evals (s : state) (e : exp) (m : res T) : Prop :=
  match m with
  | Ok t => exists v, eval s e = Ok v /\ to_dbl v = Ok t
  | Err _ => exists w, eval s e = Err w
  end.

(** ** Loops *)
(** for (x = lo; x < hi; x++) body against a fold over the same range *)
Lemma goes_while {A} x hi body (I : Z -> A -> state -> Prop) (f : A -> Z -> res A) lo n a s :
  (forall i a s, I i a s -> eval s hi = Ok (VI n) /\ env s x = Some (VI i)) ->
  (forall i a s, lo <= i < n -> I i a s ->
     goes body s (f a i) (fun a' s' => env s' x = Some (VI i) /\
                                       I (i + 1) a' (set_env s' x (VI (i + 1))))) ->
  I lo a s ->
  goes (SWhile (EBin Lt (EV x) hi) body (SSet x (EBin Add (EV x) (EI 1)))) s
       (foldM f (zrange lo n) a) (fun a' s' => I (Z.max lo n) a' s').
Proof.
  intros HE HB. remember (Z.to_nat (n - lo)) as k eqn:Hk. revert lo a s HB Hk.
  induction k as [|k IH]; intros lo a s HB Hk I0.
  - rewrite zrange_empty by lia. cbn [foldM goes]. exists s.
    rewrite Z.max_l by lia. split; [|exact I0].
    destruct (HE _ _ _ I0) as (E1 & E2). eapply runs_while_stop.
    + cbn [eval]. rewrite E1, E2. reflexivity.
    + cbn. destruct (Z.ltb_spec lo n); [lia|reflexivity].
  - rewrite zrange_cons by lia. cbn [foldM].
    destruct (HE _ _ _ I0) as (E1 & E2).
    assert (EC : eval s (EBin Lt (EV x) hi) = Ok (VI 1)).
    { cbn [eval]. rewrite E1, E2. cbn. destruct (Z.ltb_spec lo n); [reflexivity|lia]. }
    assert (R : lo <= lo < n) by lia.
    pose proof (HB lo a s R I0) as G. destruct (f a lo) as [a'|e]; cbn [goes bind] in *.
    + destruct G as (s1 & R1 & X1 & I1).
      assert (Rs : runs (SSet x (EBin Add (EV x) (EI 1))) s1 (Ok (set_env s1 x (VI (lo + 1)), Nrm))).
      { apply runs_set. cbn [eval]. rewrite X1. reflexivity. }
      specialize (IH (lo + 1) a' (set_env s1 x (VI (lo + 1)))).
      assert (IHr := IH (fun i a s Hi => HB i a s ltac:(lia)) ltac:(lia) I1). clear IH.
      replace (Z.max lo n) with (Z.max (lo + 1) n) by lia.
      destruct (foldM f (zrange (lo + 1) n) a') as [b|e]; cbn [goes] in *.
      * destruct IHr as (s2 & R2 & I2). exists s2. split; [|exact I2].
        eapply runs_while_go; eauto; reflexivity.
      * destruct IHr as (w & R2). exists w. eapply runs_while_go; eauto; reflexivity.
    + destruct G as (w & R1). exists w. eapply runs_while_err; eauto; reflexivity.
Qed.

(** the frame: variables outside W keep their values *)
Definition keeps (W : list string) (s s' : state) : Prop :=
  forall x, mems x W = false -> env s' x = env s x.
(** memory outside the objects B is unchanged, and nothing is allocated *)
Definition same_mem (B : list Z) (s s' : state) : Prop :=
  nxt s' = nxt s /\ forall b, ~ In b B -> mem s' b = mem s b.

Lemma keeps_refl W s : keeps W s s. Proof. intros x _. reflexivity. Qed.
Lemma keeps_trans W s s1 s2 : keeps W s s1 -> keeps W s1 s2 -> keeps W s s2.
Proof. intros A B x H. now rewrite B, A. Qed.
Lemma keeps_set W s s1 x v : keeps W s s1 -> mems x W = true -> keeps W s (set_env s1 x v).
Proof.
  intros K M y H. cbn. destruct (String.eqb_spec y x); [subst; congruence|]. now apply K.
Qed.
Lemma keeps_mem W s s1 b o : keeps W s s1 -> keeps W s (set_mem s1 b o).
Proof. intros K y H. now apply K. Qed.
Lemma keeps_sub W W' s s' :
  keeps W s s' -> (forall x, mems x W' = false -> mems x W = false) -> keeps W' s s'.
Proof. intros K L x H. apply K, L, H. Qed.
Lemma same_refl B s : same_mem B s s. Proof. split; reflexivity. Qed.
Lemma same_trans B s s1 s2 : same_mem B s s1 -> same_mem B s1 s2 -> same_mem B s s2.
Proof. intros (N & A) (N' & A'). split; [congruence|]. intros b H. now rewrite A', A. Qed.
Lemma same_sub B B' s s' : same_mem B s s' -> incl B B' -> same_mem B' s s'.
Proof. intros (N & A) L. split; [exact N|]. intros b H. apply A. intros Q. now apply H, L. Qed.

(** for (x = 0; x < hi; x++) p[x] = e; the model's [upd_for] *)
Lemma goes_upd x hi p e b n (f : arr T -> Z -> res T) (a : arr T) s :
  mem s b = Some (OD a) ->
  (forall i a' s', 0 <= i < n -> keeps [x] s s' -> same_mem [b] s s' ->
     env s' x = Some (VI i) -> mem s' b = Some (OD a') ->
     eval s' p = Ok (VP b 0) /\ evals s' e (f a' i)) ->
  (forall s', keeps [x] s s' -> same_mem [b] s s' -> eval s' hi = Ok (VI n)) ->
  goes (SFor x (EI 0) (EBin Lt (EV x) hi) (SStore p (EV x) e)) s (upd_for n f a)
    (fun a' s' => keeps [x] s s' /\ same_mem [b] s s' /\ mem s' b = Some (OD a')).
Proof.
  intros M HB HH. unfold SFor. eapply goes_pre.
  - apply runs_set. reflexivity.
  - eapply goes_weak.
    + unfold upd_for.
      apply (goes_while x hi (SStore p (EV x) e)
        (fun i a' s' => keeps [x] s s' /\ same_mem [b] s s' /\ mem s' b = Some (OD a') /\
                        env s' x = Some (VI i))).
      * intros i a' s' (K & S & _ & X). split; [now apply HH | exact X].
      * intros i a' s' Hi (K & S & M' & X).
        destruct (HB i a' s' Hi K S X M') as (E1 & E2).
        assert (EX : eval s' (EV x) = Ok (VI i)) by (cbn; now rewrite X).
        destruct (f a' i) as [t|w]; cbn [evals bind] in *.
        -- destruct E2 as (v & E2 & D). destruct (wr a' i t) as [a2|w] eqn:W; cbn [goes].
           ++ exists (set_mem s' b (Some (OD a2))). split.
              { eapply runs_store; eauto. }
              split; [exact X|]. split; [|split; [|split]].
              ** apply keeps_set; [now apply keeps_mem | cbn; now rewrite String.eqb_refl].
              ** split; [exact (proj1 S)|]. intros c Hc. cbn.
                 destruct (Z.eqb_spec c b); [subst; exfalso; apply Hc; now left|].
                 now apply (proj2 S).
              ** cbn. now rewrite Z.eqb_refl.
              ** cbn. now rewrite String.eqb_refl.
           ++ exists w. eapply runs_store_err; eauto. rewrite E2. eauto.
        -- destruct E2 as (w2 & E2). cbn [goes]. exists w2. eapply runs_store_err; eauto.
           now rewrite E2.
      * split; [|split; [|split]].
        -- apply keeps_set; [apply keeps_refl | cbn; now rewrite String.eqb_refl].
        -- split; reflexivity.
        -- exact M.
        -- cbn. now rewrite String.eqb_refl.
    + intros a' s' (K & S & M' & _). auto.
Qed.

Definition evald (s : state) (e : exp) (m : res T) : Prop :=
  match m with Ok t => eval s e = Ok (VD t) | Err _ => exists w, eval s e = Err w end.

(** for (x = 0; x < hi; x++) acc += e; the model's sums *)
Lemma goes_sum x acc hi e n (f : Z -> res T) t0 s :
  String.eqb x acc = false ->
  env s acc = Some (VD t0) ->
  (forall i s', 0 <= i < n -> keeps [x; acc] s s' -> mem s' = mem s ->
     env s' x = Some (VI i) -> evald s' e (f i)) ->
  (forall s', keeps [x; acc] s s' -> mem s' = mem s -> eval s' hi = Ok (VI n)) ->
  goes (SFor x (EI 0) (EBin Lt (EV x) hi) (SSet acc (EBin Add (EV acc) e))) s
    (foldM (fun t i => v <- f i ;; Ok (oadd t v)) (zrange 0 n) t0)
    (fun t s' => keeps [x; acc] s s' /\ mem s' = mem s /\ nxt s' = nxt s /\
                 env s' acc = Some (VD t)).
Proof.
  intros NE EA HB HH. unfold SFor.
  assert (NE' : String.eqb acc x = false) by (rewrite String.eqb_sym; exact NE).
  assert (MX : mems x [x; acc] = true) by (cbn; now rewrite String.eqb_refl).
  assert (MA : mems acc [x; acc] = true) by (cbn; now rewrite NE', String.eqb_refl).
  eapply goes_pre.
  - apply runs_set. reflexivity.
  - eapply goes_weak.
    + apply (goes_while x hi _
        (fun i t s' => keeps [x; acc] s s' /\ mem s' = mem s /\ nxt s' = nxt s /\
                        env s' x = Some (VI i) /\ env s' acc = Some (VD t))).
      * intros i t s' (K & M & _ & X & _). split; [now apply HH | exact X].
      * intros i t s' Hi (K & M & N & X & A).
        specialize (HB i s' Hi K M X). destruct (f i) as [v|w]; cbn [evald bind goes] in *.
        -- exists (set_env s' acc (VD (oadd t v))). split.
           { apply runs_set. cbn [eval]. rewrite A. cbn [of_option bind]. rewrite HB. reflexivity. }
           split; [cbn; now rewrite NE|].
           split; [|split; [|split; [|split]]].
           ++ apply keeps_set; [apply keeps_set; [exact K | exact MA] | exact MX].
           ++ exact M.
           ++ exact N.
           ++ cbn. now rewrite String.eqb_refl.
           ++ cbn. now rewrite NE', String.eqb_refl.
        -- destruct HB as (w2 & HB). exists w2. apply runs_set_err. cbn [eval].
           rewrite A. cbn [of_option bind]. now rewrite HB.
      * split; [|split; [|split; [|split]]].
        -- apply keeps_set; [apply keeps_refl | exact MX].
        -- reflexivity.
        -- reflexivity.
        -- cbn. now rewrite String.eqb_refl.
        -- cbn. now rewrite NE'.
    + intros t s' (K & M & N & _ & A). auto.
Qed.

End Rules.
