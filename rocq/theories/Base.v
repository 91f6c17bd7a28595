(** Outcomes, heap arrays and loops used by the model.

    Models the C++ memory behaviour the code of /repo relies on (malloc'd
    buffers, indexed loads and stores); no particular file is transcribed
    here.  Simplification: a heap buffer is addressed by its own index space, so
    an out-of-range index is reported ([OOB]) instead of hitting a neighbour. *)
From Coq Require Export ZArith List Lia Bool.
From Coq Require Import FMapPositive ZifyBool ZifyNat.
Export ListNotations.
Open Scope Z_scope.

(** ** Outcomes *)
(** what can go wrong, with an example of code that can: OOB src/ell.cpp:355, Uninit
    src/ell.cpp:111, NullDeref src/wrapper.cpp:38, BadPtr src/solve.cpp:63-65, Abort
    src/micro.cpp:55; Fuel belongs to the model *)
Inductive err := OOB        (* access outside an allocation *)
               | Uninit     (* read of a cell never written *)
               | NullDeref  (* access through a NULL / never set pointer *)
               | BadPtr     (* a scalar pointer was moved out of its object *)
               | Abort      (* a failed assert *)
               | Fuel.      (* the model's step budget was exhausted *)

(** the outcome of running a piece of code of src/ *)
Inductive res (A : Type) := Ok (a : A) | Err (e : err).
Arguments Ok {A} a.
Arguments Err {A} e.

(** one statement after the other; the first error ends the run *)
Definition bind {A B} (m : res A) (k : A -> res B) : res B :=
  match m with Ok a => k a | Err e => Err e end.
Notation "x <- m ;; k" := (bind m (fun x => k))
  (at level 61, m at next level, right associativity).
Notation "' p <- m ;; k" := (bind m (fun p => k))
  (at level 61, p pattern, m at next level, right associativity).

Lemma bind_ok {A B} (m : res A) (k : A -> res B) b :
  bind m k = Ok b <-> exists a, m = Ok a /\ k a = Ok b.
Proof. destruct m; simpl; split; [eauto | intros (x & [= <-] & H); exact H | discriminate | now intros (x & H & _)]. Qed.

(** a value that may be missing: an uninitialised or NULL one, e.g. src/homogenize.cpp:103-104 *)
Definition of_option {A} (e : err) (o : option A) : res A :=
  match o with Some a => Ok a | None => Err e end.

(** ** Index lists *)
(** for (int i = a; i < b; i++), e.g. src/ell.cpp:42 and 1159 *)
Definition zrange (a b : Z) : list Z :=
  map (fun k => a + Z.of_nat k) (seq 0 (Z.to_nat (b - a))).

Lemma in_zrange a b x : In x (zrange a b) <-> a <= x < b.
Proof.
  unfold zrange. rewrite in_map_iff. split.
  - intros (k & <- & H). apply in_seq in H. lia.
  - intros H. exists (Z.to_nat (x - a)). split; [lia | apply in_seq; lia].
Qed.

Lemma NoDup_map_inj {A B} (f : A -> B) l :
  (forall x y, In x l -> In y l -> f x = f y -> x = y) -> NoDup l -> NoDup (map f l).
Proof.
  intros H N. induction N as [|x l Hx N IH]; simpl; constructor.
  - rewrite in_map_iff. intros (y & E & Hy). apply Hx.
    rewrite (H x y); simpl; auto.
  - apply IH. intros; apply H; simpl; auto.
Qed.

Lemma NoDup_zrange a b : NoDup (zrange a b).
Proof.
  unfold zrange. apply NoDup_map_inj; [intros; lia | apply seq_NoDup].
Qed.

Lemma length_zrange a b : length (zrange a b) = Z.to_nat (b - a).
Proof. unfold zrange. now rewrite map_length, seq_length. Qed.

Lemma zrange_empty a b : b <= a -> zrange a b = [].
Proof. intros; unfold zrange. now replace (Z.to_nat (b - a)) with 0%nat by lia. Qed.

Lemma zrange_cons a b : a < b -> zrange a b = a :: zrange (a + 1) b.
Proof.
  intros. unfold zrange.
  replace (Z.to_nat (b - a)) with (S (Z.to_nat (b - (a + 1)))) by lia.
  simpl. f_equal; [lia|]. rewrite <- seq_shift, map_map.
  apply map_ext. intros; lia.
Qed.

Lemma zrange_snoc a b : a <= b -> zrange a (b + 1) = zrange a b ++ [b].
Proof.
  intros. unfold zrange.
  replace (Z.to_nat (b + 1 - a)) with (Z.to_nat (b - a) + 1)%nat by lia.
  rewrite seq_app, map_app. simpl. f_equal. f_equal. lia.
Qed.

Lemma zrange_app a b c : a <= b <= c -> zrange a c = zrange a b ++ zrange b c.
Proof.
  intros. unfold zrange.
  replace (Z.to_nat (c - a)) with (Z.to_nat (b - a) + Z.to_nat (c - b))%nat by lia.
  rewrite seq_app, map_app. f_equal.
  simpl. rewrite <- (Nat.add_0_r (Z.to_nat (b - a))) at 1.
  generalize (Z.to_nat (c - b)) as m. intros m.
  assert (E : forall p q, map (fun k => a + Z.of_nat k) (seq (Z.to_nat (b - a) + q) p)
              = map (fun k => b + Z.of_nat k) (seq q p)).
  { induction p; intros q; simpl; [reflexivity|]. f_equal; [lia|].
    rewrite <- IHp. f_equal. f_equal. lia. }
  apply E.
Qed.

(** ** Monadic fold *)
(** a C++ loop whose body may fail, e.g. src/assembly.cpp:342-347 *)
Fixpoint foldM {S A} (f : S -> A -> res S) (l : list A) (s : S) : res S :=
  match l with
  | [] => Ok s
  | x :: l => s' <- f s x ;; foldM f l s'
  end.

Lemma foldM_app {S A} (f : S -> A -> res S) l1 l2 s :
  foldM f (l1 ++ l2) s = (s' <- foldM f l1 s ;; foldM f l2 s').
Proof. revert s; induction l1; intros; simpl; [reflexivity|]. destruct (f s a); simpl; auto. Qed.

Lemma foldM_ext {S A} (f g : S -> A -> res S) l s :
  (forall s x, In x l -> f s x = g s x) -> foldM f l s = foldM g l s.
Proof.
  revert s; induction l; intros s H; simpl; [reflexivity|].
  rewrite H by (simpl; auto). destruct (g s a); simpl; auto.
  apply IHl. intros; apply H; simpl; auto.
Qed.

(** invariant rule for [foldM] *)
Lemma foldM_inv {S A} (f : S -> A -> res S) (I : list A -> S -> Prop) l s :
  I [] s ->
  (forall pre x post s, l = pre ++ x :: post -> I pre s ->
     exists s', f s x = Ok s' /\ I (pre ++ [x]) s') ->
  exists s', foldM f l s = Ok s' /\ I l s'.
Proof.
  intros H0 Hs.
  assert (G : forall post pre s, l = pre ++ post -> I pre s ->
             exists s', foldM f post s = Ok s' /\ I l s').
  { induction post as [|x post IH]; intros pre s' E HI; simpl.
    - rewrite app_nil_r in E. subst. eauto.
    - destruct (Hs pre x post s' E HI) as (s2 & E2 & HI2).
      rewrite E2. simpl. apply (IH (pre ++ [x])); [now rewrite <- app_assoc | exact HI2]. }
  apply (G l []); auto.
Qed.

(** a loop reading one value per index, e.g. src/assembly.cpp:1153-1158 *)
Fixpoint mapM {A B} (f : A -> res B) (l : list A) : res (list B) :=
  match l with
  | [] => Ok []
  | x :: l => y <- f x ;; ys <- mapM f l ;; Ok (y :: ys)
  end.

Lemma mapM_ok {A B} (f : A -> res B) (g : A -> B) l :
  (forall x, In x l -> f x = Ok (g x)) -> mapM f l = Ok (map g l).
Proof.
  induction l; intros H; simpl; [reflexivity|].
  rewrite H by (simpl; auto). simpl. rewrite IHl by (intros; apply H; simpl; auto).
  reflexivity.
Qed.

(** ** Heap arrays *)
(** a malloc'd buffer such as those of src/micro.cpp:58-65: its length and the cells written *)
Record arr (T : Type) := mkArr { alen : Z; acells : PositiveMap.t T }.
Arguments mkArr {T}. Arguments alen {T}. Arguments acells {T}.

(** the index is inside the buffer *)
Definition inb {T} (a : arr T) (i : Z) : bool := (0 <=? i) && (i <? alen a).
(** the place of cell i in the map *)
Definition key (i : Z) : positive := Z.to_pos (i + 1).

(** the content of a cell, [None] when outside or never written *)
Definition aget {T} (a : arr T) (i : Z) : option T :=
  if inb a i then PositiveMap.find (key i) (acells a) else None.

(** a load a[i], e.g. of x in src/ell.cpp:54 *)
Definition rd {T} (a : arr T) (i : Z) : res T :=
  if inb a i then of_option Uninit (PositiveMap.find (key i) (acells a)) else Err OOB.

(** a store a[i] = v, e.g. src/ell.cpp:44 *)
Definition wr {T} (a : arr T) (i : Z) (v : T) : res (arr T) :=
  if inb a i then Ok (mkArr (alen a) (PositiveMap.add (key i) v (acells a))) else Err OOB.

(** malloc of n elements, e.g. src/micro.cpp:58; it never fails *)
Definition malloc {T} (n : Z) : arr T := mkArr n (PositiveMap.empty T).

Lemma inb_spec {T} (a : arr T) i : inb a i = true <-> 0 <= i < alen a.
Proof. unfold inb. lia. Qed.

Lemma rd_aget {T} (a : arr T) i v : aget a i = Some v -> rd a i = Ok v.
Proof. unfold aget, rd. destruct inb; [|discriminate]. now intros ->. Qed.

Lemma rd_ok {T} (a : arr T) i v : rd a i = Ok v <-> aget a i = Some v.
Proof.
  unfold aget, rd. destruct inb; [|split; discriminate].
  destruct PositiveMap.find; simpl; split; congruence.
Qed.

Lemma aget_range {T} (a : arr T) i v : aget a i = Some v -> 0 <= i < alen a.
Proof. unfold aget. destruct (inb a i) eqn:E; [|discriminate]. now apply inb_spec in E. Qed.

Lemma aget_out {T} (a : arr T) i : ~ (0 <= i < alen a) -> aget a i = None.
Proof. unfold aget. rewrite <- inb_spec. destruct inb; [tauto|reflexivity]. Qed.

Lemma wr_ok {T} (a : arr T) i v :
  0 <= i < alen a -> exists a', wr a i v = Ok a' /\ alen a' = alen a /\
    (forall j, aget a' j = if j =? i then Some v else aget a j).
Proof.
  intros H. unfold wr. rewrite (proj2 (inb_spec a i) H).
  eexists; split; [reflexivity|]. split; [reflexivity|].
  intros j. unfold aget, inb. simpl.
  destruct ((0 <=? j) && (j <? alen a)) eqn:E.
  - destruct (Z.eqb_spec j i).
    + subst. apply PositiveMap.gss.
    + apply PositiveMap.gso. unfold key. intros K. apply n.
      assert (Z.pos (Z.to_pos (j + 1)) = Z.pos (Z.to_pos (i + 1))) by congruence.
      rewrite !Z2Pos.id in H0 by lia. lia.
  - destruct (Z.eqb_spec j i); [subst; lia | reflexivity].
Qed.

Lemma wr_inv {T} (a a' : arr T) i v :
  wr a i v = Ok a' -> 0 <= i < alen a /\ alen a' = alen a /\
    (forall j, aget a' j = if j =? i then Some v else aget a j).
Proof.
  intros H. assert (R : 0 <= i < alen a).
  { unfold wr in H. destruct (inb a i) eqn:E; [|discriminate]. now apply inb_spec. }
  destruct (wr_ok a i v R) as (a2 & E & P). rewrite H in E. injection E as <-. auto.
Qed.

Lemma aget_malloc {T} n i : aget (@malloc T n) i = None.
Proof. unfold aget. destruct inb; [|reflexivity]. apply PositiveMap.gempty. Qed.

(** array [a] has length [n] and holds [f i] in every cell *)
Definition rep {T} (a : arr T) (n : Z) (f : Z -> T) : Prop :=
  alen a = n /\ forall i, 0 <= i < n -> aget a i = Some (f i).

Lemma rep_rd {T} (a : arr T) n f i : rep a n f -> 0 <= i < n -> rd a i = Ok (f i).
Proof. intros (_ & H) R. now apply rd_aget, H. Qed.

Lemma rep_ext {T} (a : arr T) n f g :
  rep a n f -> (forall i, 0 <= i < n -> f i = g i) -> rep a n g.
Proof. intros (H1 & H2) E. split; [exact H1|]. intros. rewrite H2 by assumption. now rewrite E. Qed.

(** same observable contents *)
Definition aeq {T} (a b : arr T) : Prop :=
  alen a = alen b /\ forall i, aget a i = aget b i.

(** ** Lists of stores *)
(** the stores of a nest of loops in program order, e.g. src/ell.cpp:409-415 *)
Definition run_stores {T} (ws : list (Z * T)) (a : arr T) : res (arr T) :=
  foldM (fun a w => wr a (fst w) (snd w)) ws a.

(** the value the last of them leaves in cell j *)
Definition last_write {T} (ws : list (Z * T)) (j : Z) : option T :=
  fold_left (fun acc w => if fst w =? j then Some (snd w) else acc) ws None.

Lemma last_write_gen {T} (ws : list (Z * T)) j acc :
  fold_left (fun acc w => if fst w =? j then Some (snd w) else acc) ws acc =
  match last_write ws j with Some v => Some v | None => acc end.
Proof.
  unfold last_write. revert acc. induction ws as [|w ws IH]; intros acc; simpl; [reflexivity|].
  rewrite IH. rewrite (IH (if fst w =? j then Some (snd w) else None)).
  destruct (fold_left _ ws None); [reflexivity|]. destruct (fst w =? j); reflexivity.
Qed.

Lemma last_write_app {T} (ws1 ws2 : list (Z * T)) j :
  last_write (ws1 ++ ws2) j =
  match last_write ws2 j with Some v => Some v | None => last_write ws1 j end.
Proof. unfold last_write at 1. rewrite fold_left_app. apply last_write_gen. Qed.

Lemma last_write_cons {T} w (ws : list (Z * T)) j :
  last_write (w :: ws) j =
  match last_write ws j with Some v => Some v | None => if fst w =? j then Some (snd w) else None end.
Proof. unfold last_write at 1. simpl. apply last_write_gen. Qed.

Lemma last_write_in {T} (ws : list (Z * T)) j v : last_write ws j = Some v -> In (j, v) ws.
Proof.
  induction ws as [|[k x] ws IH]; [discriminate|]. rewrite last_write_cons; simpl.
  destruct (last_write ws j) eqn:E.
  - intros [= ->]. auto.
  - destruct (Z.eqb_spec k j); [|discriminate]. intros [= ->]. subst; auto.
Qed.

Lemma last_write_none {T} (ws : list (Z * T)) j :
  (forall v, ~ In (j, v) ws) -> last_write ws j = None.
Proof. intros H. destruct (last_write ws j) eqn:E; [|reflexivity]. now apply last_write_in, H in E. Qed.

Lemma last_write_none_inv {T} (ws : list (Z * T)) j v :
  last_write ws j = None -> ~ In (j, v) ws.
Proof.
  induction ws as [|[k x] ws IH]; [simpl; tauto|]. rewrite last_write_cons; simpl.
  destruct (last_write ws j) eqn:E; [discriminate|].
  destruct (Z.eqb_spec k j); [discriminate|]. intros _ [[= -> _]|H]; [tauto|]. now apply IH in H.
Qed.

Lemma last_write_unique {T} (ws : list (Z * T)) j v :
  In (j, v) ws -> (forall v', In (j, v') ws -> v' = v) -> last_write ws j = Some v.
Proof.
  intros H U. destruct (last_write ws j) eqn:E.
  - apply last_write_in in E. f_equal. auto.
  - now apply last_write_none_inv with (v := v) in E.
Qed.

Lemma run_stores_ok {T} (ws : list (Z * T)) (a : arr T) :
  (forall j v, In (j, v) ws -> 0 <= j < alen a) ->
  exists a', run_stores ws a = Ok a' /\ alen a' = alen a /\
    forall j, aget a' j = match last_write ws j with Some v => Some v | None => aget a j end.
Proof.
  unfold run_stores. revert a. induction ws as [|[k x] ws IH]; intros a H; simpl.
  - eauto.
  - destruct (wr_ok a k x) as (a1 & E1 & L1 & G1); [eapply H; simpl; eauto|].
    rewrite E1; simpl.
    destruct (IH a1) as (a2 & E2 & L2 & G2).
    { intros; rewrite L1; eapply H; simpl; eauto. }
    exists a2. split; [exact E2|]. split; [congruence|].
    intros j. rewrite last_write_cons, G2, G1; simpl.
    destruct (last_write ws j); [reflexivity|].
    rewrite (Z.eqb_sym j k). now destruct (k =? j).
Qed.

Lemma run_stores_inv {T} (ws : list (Z * T)) (a a' : arr T) :
  run_stores ws a = Ok a' -> (forall j v, In (j, v) ws -> 0 <= j < alen a) /\ alen a' = alen a /\
    forall j, aget a' j = match last_write ws j with Some v => Some v | None => aget a j end.
Proof.
  intros H. assert (R : forall j v, In (j, v) ws -> 0 <= j < alen a).
  { revert a H. unfold run_stores. induction ws as [|[k x] ws IH]; intros a H j v; simpl; [tauto|].
    simpl in H. apply bind_ok in H. destruct H as (a1 & E1 & E2).
    apply wr_inv in E1. destruct E1 as (R1 & L1 & _).
    intros [[= <- <-]|Hin]; [exact R1|]. rewrite <- L1. eauto. }
  destruct (run_stores_ok ws a R) as (a2 & E & P). rewrite H in E; injection E as <-. auto.
Qed.

Lemma run_stores_app {T} (ws1 ws2 : list (Z * T)) a :
  run_stores (ws1 ++ ws2) a = (a' <- run_stores ws1 a ;; run_stores ws2 a').
Proof. apply foldM_app. Qed.

(** ** In-place loops *)
(** for (i < n) a[i] = f(current a, i), e.g. src/ell.cpp:150-151 and 175-176 *)
Definition upd_for {T} (n : Z) (f : arr T -> Z -> res T) (a : arr T) : res (arr T) :=
  foldM (fun a i => v <- f a i ;; wr a i v) (zrange 0 n) a.

Lemma upd_for_rep {T} n (f : arr T -> Z -> res T) (a : arr T) (g : Z -> T) :
  alen a = n ->
  (forall a' i, 0 <= i < n -> alen a' = n -> aget a' i = aget a i -> f a' i = Ok (g i)) ->
  exists a', upd_for n f a = Ok a' /\ rep a' n g.
Proof.
  intros L Hf. unfold upd_for.
  destruct (foldM_inv (fun a i => v <- f a i ;; wr a i v)
     (fun pre a' => alen a' = n /\ forall i, 0 <= i < n ->
         aget a' i = if in_dec Z.eq_dec i pre then Some (g i) else aget a i)
     (zrange 0 n) a) as (a' & E & L' & G).
  - split; [exact L|]. intros. simpl. reflexivity.
  - intros pre x post s Es (Ls & Gs).
    assert (Hx : 0 <= x < n).
    { apply in_zrange. rewrite Es. apply in_or_app; simpl; auto. }
    assert (Nx : ~ In x pre).
    { pose proof (NoDup_zrange 0 n) as N. rewrite Es in N.
      apply NoDup_remove_2 in N. intros C; apply N, in_or_app; auto. }
    rewrite (Hf s x Hx Ls); [|rewrite Gs by assumption; destruct in_dec; [tauto|reflexivity]].
    simpl. destruct (wr_ok s x (g x)) as (s' & E' & L' & G'); [lia|].
    exists s'. split; [exact E'|]. split; [congruence|].
    intros i Hi. rewrite G', Gs by assumption.
    destruct (Z.eqb_spec i x).
    + subst. destruct (in_dec Z.eq_dec x (pre ++ [x])) as [|C]; [reflexivity|].
      exfalso; apply C, in_or_app; simpl; auto.
    + destruct (in_dec Z.eq_dec i pre), (in_dec Z.eq_dec i (pre ++ [x])) as [C|C]; try reflexivity.
      * exfalso; apply C, in_or_app; auto.
      * apply in_app_or in C; simpl in C. intuition congruence.
  - exists a'. split; [exact E|]. split; [exact L'|].
    intros i Hi. rewrite G by exact Hi.
    destruct in_dec as [|C]; [reflexivity|]. exfalso; apply C, in_zrange; lia.
Qed.

(** ** Fixed local arrays: a list filled by an index function, read by position.
    Reads are total (value of the position); every use in the model has a
    loop bound equal to the declared C++ dimension. *)
Definition tab {T} (n : nat) (f : nat -> T) : list T := map f (seq 0 n).

Lemma nth_tab {T} n (f : nat -> T) i d : (i < n)%nat -> nth i (tab n f) d = f i.
Proof.
  intros H. unfold tab.
  rewrite (nth_indep _ d (f 0%nat)) by (rewrite map_length, seq_length; exact H).
  rewrite map_nth, seq_nth by exact H. reflexivity.
Qed.

Lemma tab_length {T} n (f : nat -> T) : length (tab n f) = n.
Proof. unfold tab. now rewrite map_length, seq_length. Qed.

Lemma tab_ext {T} n (f g : nat -> T) : (forall i, (i < n)%nat -> f i = g i) -> tab n f = tab n g.
Proof. intros H. apply map_ext_in. intros i Hi. apply in_seq in Hi. apply H. lia. Qed.

(** ** Mixed-radix uniqueness *)
Lemma radix_inj m a b a' b' :
  0 <= b < m -> 0 <= b' < m -> a * m + b = a' * m + b' -> a = a' /\ b = b'.
Proof.
  intros H H' E. assert (a = a') by nia. subst. lia.
Qed.
