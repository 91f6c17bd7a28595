(** Scalars: the C++ type [double], abstractly.

    Every numeric expression of /repo is transcribed over [Ops T], keeping its
    association and evaluation order.  A theorem for every [Ops T] therefore
    applies to IEEE doubles (see FloatInst.v); a theorem at [ROps] is an
    exact-arithmetic statement. *)
From Coq Require Import Reals Lra.
From Verif Require Import Base.

Class Ops (T : Type) := {
  ofZ   : Z -> T;             (* int -> double conversion, and literals *)
  oadd  : T -> T -> T;
  osub  : T -> T -> T;
  omul  : T -> T -> T;
  odiv  : T -> T -> T;
  oopp  : T -> T;
  osqrt : T -> T;
  oabs  : T -> T;             (* fabs *)
  oltb  : T -> T -> bool;     (* x < y *)
}.

Declare Scope num_scope.
Delimit Scope num_scope with num.
Infix "+" := oadd : num_scope.
Infix "-" := osub : num_scope.
Infix "*" := omul : num_scope.
Infix "/" := odiv : num_scope.
Notation "- x" := (oopp x) : num_scope.
Infix "<?" := oltb : num_scope.

(** decimal literal m * 10^-e, e.g. 1.0e-8 of src/solve.cpp:25 *)
Definition dec {T} `{Ops T} (m : Z) (e : Z) : T := odiv (ofZ m) (ofZ (10 ^ e)).

(** A loop  acc = 0; for (x : l) acc += f(x);  e.g. src/assembly.cpp:496-498 *)
Definition sumf {T A} `{Ops T} (l : list A) (f : A -> T) : T :=
  fold_left (fun acc x => oadd acc (f x)) l (ofZ 0).

(** the same when the terms are read from memory, e.g. src/ell.cpp:52-54 *)
Definition sumM {T A} `{Ops T} (l : list A) (f : A -> res T) : res T :=
  foldM (fun acc x => v <- f x ;; Ok (oadd acc v)) l (ofZ 0).

Lemma sumM_ok {T A} `{Ops T} (l : list A) (f : A -> res T) (g : A -> T) :
  (forall x, In x l -> f x = Ok (g x)) -> sumM l f = Ok (sumf l g).
Proof.
  unfold sumM, sumf. generalize (ofZ 0 : T) as z.
  induction l; intros z Hf; simpl; [reflexivity|].
  rewrite Hf by (simpl; auto). simpl. apply IHl. intros; apply Hf; simpl; auto.
Qed.

Lemma sumf_ext {T A} `{Ops T} (l : list A) (f g : A -> T) :
  (forall x, In x l -> f x = g x) -> sumf l f = sumf l g.
Proof.
  unfold sumf. generalize (ofZ 0 : T) as z.
  induction l; intros z Hf; simpl; [reflexivity|].
  rewrite Hf by (simpl; auto). apply IHl. intros; apply Hf; simpl; auto.
Qed.

(** ** Lists of accumulations *)
(** a[j] += v in program order, e.g. src/ell.cpp:351-356 *)
Definition run_adds {T} `{Ops T} (ws : list (Z * T)) (a : arr T) : res (arr T) :=
  foldM (fun a w => old <- rd a (fst w) ;; wr a (fst w) (oadd old (snd w))) ws a.

(** the deltas addressed to cell j, in program order *)
Definition deltas {T} (ws : list (Z * T)) (j : Z) : list T :=
  map snd (filter (fun w => fst w =? j) ws).

Lemma run_adds_ok {T} `{Ops T} (ws : list (Z * T)) (a : arr T) n f :
  rep a n f -> (forall j v, In (j, v) ws -> 0 <= j < n) ->
  exists a', run_adds ws a = Ok a' /\
    rep a' n (fun j => fold_left oadd (deltas ws j) (f j)).
Proof.
  unfold run_adds. revert a f. induction ws as [|[k x] ws IH]; intros a f R Hin; simpl.
  - exists a. split; [reflexivity|]. exact R.
  - assert (Hk : 0 <= k < n) by (eapply Hin; simpl; eauto).
    rewrite (rep_rd a n f k R Hk). simpl.
    destruct (wr_ok a k (oadd (f k) x)) as (a1 & E1 & L1 & G1); [destruct R; lia|].
    rewrite E1; simpl.
    destruct (IH a1 (fun j => if j =? k then oadd (f k) x else f j)) as (a2 & E2 & R2).
    + destruct R as (L & G). split; [congruence|].
      intros i Hi. rewrite G1, G by assumption. now destruct (i =? k).
    + intros; eapply Hin; simpl; eauto.
    + exists a2. split; [exact E2|]. apply (rep_ext _ _ _ _ R2).
      intros i Hi. unfold deltas; simpl. rewrite (Z.eqb_sym i k).
      destruct (Z.eqb_spec k i); simpl; [subst; reflexivity|reflexivity].
Qed.

(** ** Exact reals *)
Definition Rltb (x y : R) : bool := if Rlt_dec x y then true else false.

Lemma Rltb_true x y : Rltb x y = true <-> (x < y)%R.
Proof. unfold Rltb. destruct (Rlt_dec x y); split; intros; try easy. Qed.
Lemma Rltb_false x y : Rltb x y = false <-> (y <= x)%R.
Proof. unfold Rltb. destruct (Rlt_dec x y); split; intros; try easy; lra. Qed.

#[global] Instance ROps : Ops R := {
  ofZ := IZR; oadd := Rplus; osub := Rminus; omul := Rmult; odiv := Rdiv;
  oopp := Ropp; osqrt := sqrt; oabs := Rabs; oltb := Rltb }.

(** ** Finite sums over R *)
Open Scope R_scope.

Fixpoint rsum {A} (l : list A) (f : A -> R) : R :=
  match l with [] => 0 | x :: l => f x + rsum l f end.

Lemma rsum_app {A} (l1 l2 : list A) f : rsum (l1 ++ l2) f = rsum l1 f + rsum l2 f.
Proof. induction l1; simpl; lra. Qed.

Lemma rsum_ext {A} (l : list A) f g : (forall x, In x l -> f x = g x) -> rsum l f = rsum l g.
Proof. induction l; intros H; simpl; [reflexivity|]. rewrite H, IHl; simpl; auto. intros; apply H; simpl; auto. Qed.

Lemma rsum_zero {A} (l : list A) f : (forall x, In x l -> f x = 0) -> rsum l f = 0.
Proof. induction l; intros H; simpl; [reflexivity|]. rewrite H, IHl; simpl; auto; [lra|]. intros; apply H; simpl; auto. Qed.

Lemma rsum_plus {A} (l : list A) f g : rsum l (fun x => f x + g x) = rsum l f + rsum l g.
Proof. induction l; simpl; lra. Qed.
Lemma rsum_minus {A} (l : list A) f g : rsum l (fun x => f x - g x) = rsum l f - rsum l g.
Proof. induction l; simpl; lra. Qed.
Lemma rsum_opp {A} (l : list A) f : rsum l (fun x => - f x) = - rsum l f.
Proof. induction l; simpl; lra. Qed.
Lemma rsum_scal {A} (l : list A) c f : rsum l (fun x => c * f x) = c * rsum l f.
Proof. induction l; simpl; lra. Qed.
Lemma rsum_scal_r {A} (l : list A) c f : rsum l (fun x => f x * c) = rsum l f * c.
Proof. induction l; simpl; lra. Qed.

Lemma rsum_swap {A B} (l : list A) (l' : list B) f :
  rsum l (fun x => rsum l' (fun y => f x y)) = rsum l' (fun y => rsum l (fun x => f x y)).
Proof.
  induction l; simpl; [symmetry; now apply rsum_zero|].
  rewrite IHl, <- rsum_plus. reflexivity.
Qed.

Lemma rsum_map {A B} (g : A -> B) (l : list A) f : rsum (map g l) f = rsum l (fun x => f (g x)).
Proof. induction l; simpl; congruence. Qed.

Lemma rsum_flat_map {A B} (g : A -> list B) (l : list A) f :
  rsum (flat_map g l) f = rsum l (fun x => rsum (g x) f).
Proof. induction l; simpl; [reflexivity|]. rewrite rsum_app. congruence. Qed.

Lemma rsum_filter {A} (p : A -> bool) (l : list A) f :
  rsum (filter p l) f = rsum l (fun x => if p x then f x else 0).
Proof. induction l; simpl; [reflexivity|]. destruct (p a); simpl; rewrite IHl; lra. Qed.

Lemma rsum_nonneg {A} (l : list A) f : (forall x, In x l -> 0 <= f x) -> 0 <= rsum l f.
Proof. induction l; intros H; simpl; [lra|]. assert (0 <= f a) by (apply H; simpl; auto).
  assert (0 <= rsum l f) by (apply IHl; intros; apply H; simpl; auto). lra. Qed.

Lemma rsum_nonneg_zero {A} (l : list A) f :
  (forall x, In x l -> 0 <= f x) -> rsum l f = 0 -> forall x, In x l -> f x = 0.
Proof.
  induction l; simpl; intros H E x Hx; [tauto|].
  assert (0 <= f a) by (apply H; auto).
  assert (0 <= rsum l f) by (apply rsum_nonneg; auto).
  destruct Hx as [->|Hx]; [lra|]. apply IHl; auto. lra.
Qed.

(** a sum with a single possibly non-zero term *)
Lemma rsum_single {A} (l : list A) f a :
  NoDup l -> In a l -> (forall x, In x l -> x <> a -> f x = 0) -> rsum l f = f a.
Proof.
  induction 1 as [|x l Hx N IH]; simpl; [tauto|]. intros [->|Hin] Hz.
  - rewrite rsum_zero; [lra|]. intros y Hy. apply Hz; auto. intros ->; auto.
  - rewrite Hz, IH; auto; [lra|]. intros ->; auto.
Qed.

Lemma rsum_const {A} (l : list A) c : rsum l (fun _ => c) = INR (length l) * c.
Proof. induction l; [simpl; lra|]. simpl length. rewrite S_INR. simpl. rewrite IHl. lra. Qed.

Lemma fold_left_Rplus (l : list R) z : fold_left Rplus l z = z + rsum l (fun x => x).
Proof. revert z; induction l; intros; simpl; [lra|]. rewrite IHl. lra. Qed.

Lemma sumf_R {A} (l : list A) (f : A -> R) : sumf l f = rsum l f.
Proof.
  unfold sumf. simpl.
  assert (G : forall z, fold_left (fun acc x => acc + f x) l z = z + rsum l f).
  { induction l; intros; simpl; [lra|]. rewrite IHl. lra. }
  rewrite G. lra.
Qed.

Lemma rsum_deltas (ws : list (Z * R)) j :
  rsum (@deltas R ws j) (fun x => x) = rsum ws (fun w => if (fst w =? j)%Z then snd w else 0).
Proof. unfold deltas. now rewrite rsum_map, rsum_filter. Qed.

(** sums over integer ranges *)
Lemma rsum_zrange_snoc a b f : (a <= b)%Z -> rsum (zrange a (b + 1)) f = rsum (zrange a b) f + f b.
Proof. intros. rewrite zrange_snoc by assumption. rewrite rsum_app. simpl. lra. Qed.

Lemma rsum_zrange_cons a b f : (a < b)%Z -> rsum (zrange a b) f = f a + rsum (zrange (a + 1) b) f.
Proof. intros. now rewrite zrange_cons by assumption. Qed.

Lemma rsum_telescope n (g : Z -> R) : (0 <= n)%Z ->
  rsum (zrange 0 n) (fun i => g (i + 1)%Z - g i) = g n - g 0%Z.
Proof.
  intros H. pattern n. apply natlike_ind; [| |exact H].
  - simpl. lra.
  - intros x Hx IH. unfold Z.succ. rewrite rsum_zrange_snoc by exact Hx. rewrite IH. lra.
Qed.

Lemma rsum_zrange_const a b c : (a <= b)%Z -> rsum (zrange a b) (fun _ => c) = IZR (b - a) * c.
Proof.
  intros. rewrite rsum_const, length_zrange. rewrite INR_IZR_INZ, Z2Nat.id by lia. reflexivity.
Qed.

Lemma zrange_shift a b c : zrange (a + c) (b + c) = map (fun x => (x + c)%Z) (zrange a b).
Proof.
  unfold zrange. rewrite map_map. replace (b + c - (a + c))%Z with (b - a)%Z by lia.
  apply map_ext. intros; lia.
Qed.
Close Scope R_scope.
