(** Calls between the syntax trees of src/assembly.cpp, src/solve.cpp and src/ell.cpp: running a
    tree in a larger program, calls in terms of their outcome, loops against folds. *)
From Coq Require Import String.
From Verif Require Import Base Scalar Clite CliteRules EllAst AsmAst Sym SymFold.
Local Open Scope string_scope.
Local Open Scope Z_scope.

Section Calls.
Context {T : Type} `{OT : Ops T}.
Notation state := (@state T).

(** ** a larger program *)
Section Mono.
Variables P P' : string -> option fdef.
Hypothesis LE : forall f d, P f = Some d -> P' f = Some d.
Lemma exec_mono n : forall c (s : state) r, exec P n c s = Ok r -> exec P' n c s = Ok r.
Proof.
  induction n as [|n IH]; intros c s r E; [discriminate E|].
  destruct c; cbn [exec] in E |- *; try exact E.
  - apply bind_ok in E. destruct E as ([s1 g1] & E1 & E). rewrite (IH _ _ _ E1). cbn [bind].
    destruct g1; auto.
  - apply bind_ok in E. destruct E as (v & E1 & E). rewrite E1. cbn [bind].
    apply bind_ok in E. destruct E as (t & E2 & E). rewrite E2. cbn [bind]. destruct t; auto.
  - apply bind_ok in E. destruct E as (v & E1 & E). rewrite E1. cbn [bind].
    apply bind_ok in E. destruct E as (t & E2 & E). rewrite E2. cbn [bind]. destruct t; [|auto].
    apply bind_ok in E. destruct E as ([s1 g1] & E3 & E). rewrite (IH _ _ _ E3). cbn [bind]. destruct g1; auto.
    apply bind_ok in E. destruct E as ([s2 g2] & E4 & E). rewrite (IH _ _ _ E4). cbn [bind]. destruct g2; auto.
  - apply bind_ok in E. destruct E as ([s1 g1] & E3 & E). rewrite (IH _ _ _ E3). cbn [bind]. destruct g1; auto.
    apply bind_ok in E. destruct E as (v & E1 & E). rewrite E1. cbn [bind].
    apply bind_ok in E. destruct E as (t & E2 & E). rewrite E2. cbn [bind]. destruct t; auto.
  - apply bind_ok in E. destruct E as (d & E0 & E). destruct (P f) as [d'|] eqn:PF; [|discriminate E0].
    injection E0 as ->. rewrite (LE _ _ PF). cbn [of_option bind] in *.
    apply bind_ok in E. destruct E as (vs & E1 & E). rewrite E1. cbn [bind].
    apply bind_ok in E. destruct E as (e & E2 & E). rewrite E2. cbn [bind].
    apply bind_ok in E. destruct E as ([s1 g1] & E3 & E). rewrite (IH _ _ _ E3). cbn [bind]. destruct g1; auto.
  - apply bind_ok in E. destruct E as (d & E0 & E). destruct (P f) as [d'|] eqn:PF; [|discriminate E0].
    injection E0 as ->. rewrite (LE _ _ PF). cbn [of_option bind] in *.
    apply bind_ok in E. destruct E as (vs & E1 & E). rewrite E1. cbn [bind].
    apply bind_ok in E. destruct E as (e & E2 & E). rewrite E2. cbn [bind].
    apply bind_ok in E. destruct E as ([s1 g1] & E3 & E). rewrite (IH _ _ _ E3). cbn [bind]. destruct g1; auto.
Qed.
Lemma calls_mono f vs h k (r : state * sig) : calls P f vs h k (Ok r) -> calls P' f vs h k (Ok r).
Proof.
  unfold calls. destruct (P f) as [d|] eqn:PF; [|intros []]. rewrite (LE _ _ PF).
  destruct (bindp _ vs _); [|intros []]. intros (n & H). exists n. intros k' L. apply exec_mono. now apply H.
Qed.
End Mono.

Lemma ell_in_asm f d : ell_prog f = Some d -> asm_prog f = Some d.
Proof.
  unfold ell_prog. intros E. repeat match type of E with
  | (if String.eqb f ?s then _ else _) = _ =>
      destruct (String.eqb_spec f s); [subst f; exact E|]
  end. discriminate E.
Qed.
Lemma calls_ell f vs h k (r : state * sig) : calls ell_prog f vs h k (Ok r) -> calls asm_prog f vs h k (Ok r).
Proof. apply calls_mono. exact ell_in_asm. Qed.

(** ** addresses only grow *)
Lemma exec_nxt P n : forall c (s s' : state) g, exec P n c s = Ok (s', g) -> nxt s <= nxt s'.
Proof.
  induction n as [|n IH]; intros c s s' g E; [discriminate E|].
  destruct c; cbn [exec] in E.
  - injection E as <- _. lia.
  - apply bind_ok in E. destruct E as ([s1 g1] & E1 & E). apply IH in E1. destruct g1.
    + apply IH in E. lia.
    + injection E as <- _. exact E1.
    + injection E as <- _. exact E1.
  - apply bind_ok in E. destruct E as (v & _ & E). injection E as <- _. cbn. lia.
  - apply bind_ok in E. destruct E as (v & _ & E). apply bind_ok in E. destruct E as (w & _ & E).
    apply bind_ok in E. destruct E as (k & _ & E). apply bind_ok in E. destruct E as (u & _ & E).
    apply bind_ok in E. destruct E as (s1 & E1 & E). injection E as <- _. unfold store in E1.
    destruct v; try discriminate. destruct (mem s b) as [[a|a|f|f]|] eqn:M; try discriminate;
      apply bind_ok in E1; destruct E1 as (t & _ & E1); apply bind_ok in E1; destruct E1 as (a' & _ & E1);
      injection E1 as <-; cbn; lia.
  - apply bind_ok in E. destruct E as (v & _ & E). apply bind_ok in E. destruct E as (u & _ & E).
    apply bind_ok in E. destruct E as (s1 & E1 & E). injection E as <- _. unfold store_fld in E1.
    destruct v; try discriminate. destruct o; try discriminate.
    destruct (mem s b) as [[a|a|fs|fs]|] eqn:M; try discriminate. destruct (fget fs f); try discriminate.
    injection E1 as <-; cbn; lia.
  - apply bind_ok in E. destruct E as (v & _ & E). apply bind_ok in E. destruct E as (t & _ & E).
    destruct t; eauto.
  - apply bind_ok in E. destruct E as (v & _ & E). apply bind_ok in E. destruct E as (t & _ & E).
    destruct t; [|injection E as <- _; lia].
    apply bind_ok in E. destruct E as ([s1 g1] & E1 & E). apply IH in E1. destruct g1.
    + apply bind_ok in E. destruct E as ([s2 g2] & E2 & E). apply IH in E2.
      destruct g2; [apply IH in E | injection E as <- _ ..]; lia.
    + injection E as <- _. exact E1.
    + injection E as <- _. exact E1.
  - apply bind_ok in E. destruct E as ([s1 g1] & E1 & E). apply IH in E1. destruct g1.
    + apply bind_ok in E. destruct E as (v & _ & E). apply bind_ok in E. destruct E as (t & _ & E).
      destruct t; [apply IH in E; lia|injection E as <- _; exact E1].
    + injection E as <- _. exact E1.
    + injection E as <- _. exact E1.
  - injection E as <- _. lia.
  - apply bind_ok in E. destruct E as (v & _ & E). injection E as <- _. lia.
  - apply bind_ok in E. destruct E as (d & _ & E). apply bind_ok in E. destruct E as (vs & _ & E).
    apply bind_ok in E. destruct E as (e & _ & E). apply bind_ok in E. destruct E as ([s1 g1] & E1 & E).
    apply IH in E1. cbn in E1. destruct g1; [injection E as <- _; exact E1 | discriminate | injection E as <- _; exact E1].
  - apply bind_ok in E. destruct E as (d & _ & E). apply bind_ok in E. destruct E as (vs & _ & E).
    apply bind_ok in E. destruct E as (e & _ & E). apply bind_ok in E. destruct E as ([s1 g1] & E1 & E).
    apply IH in E1. cbn in E1. destruct g1; try discriminate. injection E as <- _. exact E1.
  - injection E as <- _. cbn. lia.
  - apply bind_ok in E. destruct E as (v & _ & E). apply bind_ok in E. destruct E as (k & _ & E).
    injection E as <- _. cbn. lia.
  - apply bind_ok in E. destruct E as (v & _ & E). destruct v; try discriminate.
    + destruct o; try discriminate. destruct (mem s b) eqn:M; [|discriminate]. injection E as <- _. cbn. lia.
    + injection E as <- _. lia.
  - apply bind_ok in E. destruct E as (vs & _ & E). apply bind_ok in E. destruct E as (a & _ & E).
    injection E as <- _. cbn. lia.
Qed.
Lemma calls_nxt P f vs h K (st : state) g : calls P f vs h K (Ok (st, g)) -> K <= nxt st.
Proof.
  unfold calls. destruct (P f); [|intros []]. destruct (bindp _ vs _); [|intros []].
  intros (n & H). specialize (H n (Nat.le_refl n)). apply exec_nxt in H. exact H.
Qed.

(** ** a call, given what it does *)
Lemma runs_calls P f args (s : state) vs s1 g : mapM (eval s) args = Ok vs ->
  calls P f vs (mem s) (nxt s) (Ok (s1, g)) -> g <> Brk ->
  runs P (SCall f args) s (Ok (mkSt (env s) (mem s1) (nxt s1), Nrm)).
Proof.
  intros E C G. unfold calls in C. destruct (P f) as [d|] eqn:PF; [|destruct C].
  destruct (bindp (f_params d) vs (fun _ => None)) as [e|] eqn:B; [|destruct C].
  eapply runs_call; eauto.
Qed.
Lemma runs_callsR P x f args (s : state) vs s1 v : mapM (eval s) args = Ok vs ->
  calls P f vs (mem s) (nxt s) (Ok (s1, Ret v)) ->
  runs P (SCallR x f args) s (Ok (set_env (mkSt (env s) (mem s1) (nxt s1)) x v, Nrm)).
Proof.
  intros A C. unfold calls in C. destruct (P f) as [d|] eqn:PF; [|destruct C].
  destruct (bindp (f_params d) vs (fun _ => None)) as [e|] eqn:B; [|destruct C].
  destruct C as (n & Hn). exists (S n). intros [|k] L; [lia|]. cbn [exec].
  rewrite PF. cbn [of_option bind]. rewrite A. cbn [bind]. rewrite B. cbn [bind].
  rewrite Hn by lia. reflexivity.
Qed.

(** ** for (int x = lo; c; x++) body *)
Lemma runs_fold P {M} (f : M -> Z -> res M) x lo c body (R : M -> state -> Prop) l h m m' s :
  foldM f (zrange l h) m = Ok m' -> R m s -> eval s lo = Ok (VI l) ->
  (forall m s i, R m s -> R m (set_env s x (VI i))) ->
  (forall i m s, R m s -> env s x = Some (VI i) -> exists v, eval s c = Ok v /\ truth v = Ok (i <? h)) ->
  (forall i m m' s, l <= i < h -> f m i = Ok m' -> R m s -> env s x = Some (VI i) ->
     exists s', runs P body s (Ok (s', Nrm)) /\ R m' s' /\ env s' x = Some (VI i)) ->
  exists s', runs P (SFor x lo c body) s (Ok (s', Nrm)) /\ R m' s'.
Proof.
  intros E R0 EL RS HC HB. unfold SFor.
  assert (G : forall n i m s, l <= i -> Z.to_nat (h - i) = n -> foldM f (zrange i h) m = Ok m' -> R m s ->
    env s x = Some (VI i) ->
    exists s', runs P (SWhile c body (SSet x (EBin Add (EV x) (EI 1)))) s (Ok (s', Nrm)) /\ R m' s').
  { clear m s E R0 EL. induction n as [|n IH]; intros i m s LI Q E R0 EX;
      destruct (HC i m s R0 EX) as (v & EV' & TV).
    - rewrite zrange_nil in E by lia. injection E as <-. exists s. split; [|exact R0].
      eapply runs_while_stop; [exact EV'|]. rewrite TV. destruct (Z.ltb_spec i h); [lia|reflexivity].
    - rewrite zrange_cons in E by lia. cbn [foldM] in E. apply bind_ok in E. destruct E as (m2 & E1 & E2).
      destruct (HB i m m2 s ltac:(lia) E1 R0 EX) as (s2 & R2 & I2 & X2).
      assert (TV' : truth v = Ok true) by (rewrite TV; destruct (Z.ltb_spec i h); [reflexivity|lia]).
      destruct (IH (i + 1) m2 (set_env s2 x (VI (i + 1))) ltac:(lia) ltac:(lia) E2) as (s3 & R3 & I3).
      + now apply RS.
      + cbn. now rewrite String.eqb_refl.
      + exists s3. split; [|exact I3]. eapply runs_while_go; [exact EV'|exact TV'|exact R2| |exact R3].
        apply runs_set. cbn. now rewrite X2. }
  destruct (G _ l m (set_env s x (VI l)) ltac:(lia) eq_refl E) as (s' & R1 & I1').
  - now apply RS.
  - cbn. now rewrite String.eqb_refl.
  - exists s'. split; [|exact I1']. eapply runs_seq; [|exact R1]. now apply runs_set.
Qed.
End Calls.
