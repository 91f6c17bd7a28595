(** Loops of the syntax trees against folds of the model, over the small memory of Sym.v, and
    functions that return a value. *)
From Coq Require Import String.
From Verif Require Import Base Scalar Clite CliteRules Sym SymStep.
Local Open Scope string_scope.
Local Open Scope Z_scope.

Section Fold.
Context {T : Type} `{OT : Ops T}.
Notation val := (@val T). Notation obj := (@obj T). Notation obj1 := (@obj1 T).
Notation state := (@state T).
Variable P : string -> option fdef.

Definition with1 (x : string) (i : Z) (w : @st1 T) : @st1 T := mk1 ((x, VI i) :: e1 w) (m1 w).

Lemma sim_with ad w s2 x i : sim ad w s2 -> sim ad (with1 x i w) (set_env s2 x (VI i)).
Proof.
  intros (H1 & H2). split; [|exact H2]. intros y v. cbn. destruct (String.eqb y x); [|apply H1].
  intros [= <-]. exists (VI i). split; reflexivity.
Qed.
Lemma sim_again ad w s2 x i j : sim ad (with1 x i w) s2 -> sim ad (with1 x j w) (set_env s2 x (VI j)).
Proof.
  intros (H1 & H2). split; [|exact H2]. intros y v. cbn. destruct (String.eqb y x) eqn:E.
  - intros [= <-]. exists (VI j). split; reflexivity.
  - intros L. apply H1. cbn. now rewrite E.
Qed.
Lemma step_with0 x lo l w : eval1 w lo [] = Some (VI l, [], []) -> step P (SSet x lo) w (with1 x l w).
Proof.
  intros E ad s2 S. destruct (eval1_ok _ _ _ S _ _ _ _ _ E I) as (v2 & E2 & R). cbn in R. subst v2.
  exists (set_env s2 x (VI l)). split; [now apply runs_set|]. split; [now apply sim_with|apply kept_refl].
Qed.
Lemma step_next x i w : step P (SSet x (EBin Add (EV x) (EI 1))) (with1 x i w) (with1 x (i + 1) w).
Proof.
  intros ad s2 S. exists (set_env s2 x (VI (i + 1))). split; [|split; [eapply sim_again; eauto|apply kept_refl]].
  apply runs_set. cbn. destruct S as (S & _). destruct (S x (VI i)) as (v & E & R).
  { cbn. now rewrite String.eqb_refl. }
  cbn in R. subst v. rewrite E. reflexivity.
Qed.
Lemma weaker_with x i w : look1 x (e1 w) = None -> weaker (with1 x i w) w.
Proof.
  intros N ad s2 (H1 & H2). split; [|exact H2]. intros y v L. apply H1. cbn.
  destruct (String.eqb_spec y x); [congruence|exact L].
Qed.

Lemma zrange_cons l h : l < h -> zrange l h = l :: zrange (l + 1) h.
Proof.
  intros L. unfold zrange. replace (Z.to_nat (h - l)) with (S (Z.to_nat (h - (l + 1)))) by lia.
  cbn [seq map]. f_equal; [lia|]. rewrite <- seq_shift, map_map. apply map_ext. intros a. lia.
Qed.
Lemma zrange_nil l h : h <= l -> zrange l h = [].
Proof. intros L. unfold zrange. now replace (Z.to_nat (h - l)) with 0%nat by lia. Qed.

(** for (int x = lo; c; x++) body *)
Lemma step_fold {M} (f : M -> Z -> res M) x lo c body (W : M -> @st1 T) l h m m' :
  foldM f (zrange l h) m = Ok m' -> (forall m, look1 x (e1 (W m)) = None) ->
  eval1 (W m) lo [] = Some (VI l, [], []) ->
  (forall i m, cond1 c (with1 x i (W m)) (i <? h)) ->
  (forall i m m', l <= i < h -> f m i = Ok m' -> step P body (with1 x i (W m)) (with1 x i (W m'))) ->
  step P (SFor x lo c body) (W m) (W m').
Proof.
  intros E N L HC HB. unfold SFor. eapply step_seq; [apply step_with0; exact L|]. clear L.
  assert (G : forall n i m, l <= i -> Z.to_nat (h - i) = n -> foldM f (zrange i h) m = Ok m' ->
    step P (SWhile c body (SSet x (EBin Add (EV x) (EI 1)))) (with1 x i (W m)) (W m')).
  { clear m E. induction n as [|n IH]; intros i m LI Q E.
    - rewrite zrange_nil in E by lia. injection E as <-. eapply step_weak; [|apply (weaker_with x i); apply N].
      apply step_while_stop. specialize (HC i m). destruct (Z.ltb_spec i h); [lia|exact HC].
    - rewrite zrange_cons in E by lia. cbn [foldM] in E. apply bind_ok in E. destruct E as (m2 & E1 & E2).
      eapply step_while_go.
      + specialize (HC i m). destruct (Z.ltb_spec i h); [exact HC|lia].
      + apply HB; [lia|exact E1].
      + apply step_next.
      + apply IH; [lia|lia|exact E2]. }
  eapply G; eauto. lia.
Qed.

(** a stretch that can be run by computation, then the rest *)
Section Execs.
Variable SM : string -> option (@summary T).
Hypothesis SMok : forall f sm, SM f = Some sm -> sum_ok P f sm.
Lemma execs_runs n l : forall w q w1 p ad s2, out3 (execs1 P SM n l w q) = Some (w1, p) -> alls p -> sat ad w s2 ->
  exists l' s', (forall c r, runs P c s' r -> runs P (seqs l c) s2 r) /\ sat (ad ++ l')%list w1 s' /\
    fresh ad (nxt s2) l' /\ kept ad (mem s2) (mem s') (nxt s2) (nxt s').
Proof.
  induction l as [|a l IH]; intros w q w1 p ad s2 E A S; cbn in E.
  - injection E as <- <-. exists [], s2. rewrite app_nil_r. split; [auto|]. split; [exact S|]. split; [apply fresh_nil|apply kept_refl].
  - unfold out3 in E. destruct (bind1 _ _ q) as [[[s q2] p2]|] eqn:B; [|discriminate]. injection E as <- <-.
    apply bind1_some in B; [|exact A]. destruct B as ([s1 g] & o1 & p1 & p3 & E1 & E2 & A1 & A3).
    destruct g; cbn [fst snd] in E2; try discriminate. cbn [seqs].
    destruct (exec1_ok P SM SMok _ _ _ s2 _ _ _ _ _ ad E1 A1 S) as (l' & s2' & g2 & R & G & S' & Fr & Kp & _).
    apply rgr_nrm in G. subst g2.
    destruct (IH s1 o1 s p3 _ s2' ltac:(unfold out3; now rewrite E2) A3 S') as (l3 & s3 & R3 & S3 & F3 & K3).
    exists (l' ++ l3)%list, s3. split; [|split; [|split]].
    + intros c r RC. eapply runs_seq; [exact R|]. now apply R3.
    + rewrite app_assoc. exact S3.
    + intros a' I. apply in_app_iff in I. destruct I as [I|I]; [auto|]. apply F3 in I. destruct Kp. lia.
    + eapply kept_trans; eauto.
Qed.
Lemma step_execs k n l c w q w1 p xs w2 : cut3 k xs (out3 (execs1 P SM n l w q)) = Some (w1, p) ->
  alls p -> k = List.length (m1 w) -> step P c w1 w2 -> step P (seqs l c) w w2.
Proof.
  intros E A -> H ad s2 S. unfold cut3 in E. destruct (out3 (execs1 P SM n l w q)) as [[w3 p1]|] eqn:X; [|discriminate].
  destruct (cut (List.length (m1 w)) xs w3) as [w4|] eqn:C; [|discriminate]. injection E as <- <-.
  destruct (execs_runs _ _ _ _ _ _ ad s2 X A S) as (l' & s' & R & S' & Fr & Kp).
  unfold cut in C. cbv zeta in C. destruct S as (_ & _ & L & _). rewrite <- L in *.
  destruct (forallb (ino1 (List.length ad)) (firstn (List.length ad) (m1 w3))) eqn:F; [|discriminate].
  injection C as <-. apply (sim_cut ad l' xs) in S'; [|exact F]. destruct (H ad s' S') as (s3 & R3 & S3 & K3).
  exists s3. split; [now apply R|]. split; [exact S3|]. eapply kept_same; eauto.
Qed.
Lemma rstep_execs n l c w q w1 p w2 v : out3 (execs1 P SM n l w q) = Some (w1, p) ->
  alls p -> (forall ad s2, sat ad w1 s2 -> exists l s2', runs P c s2 (Ok (s2', Ret v)) /\ sat (ad ++ l)%list w2 s2' /\
    fresh ad (nxt s2) l /\ kept ad (mem s2) (mem s2') (nxt s2) (nxt s2')) ->
  forall ad s2, sat ad w s2 -> exists l' s2', runs P (seqs l c) s2 (Ok (s2', Ret v)) /\ sat (ad ++ l')%list w2 s2' /\
    fresh ad (nxt s2) l' /\ kept ad (mem s2) (mem s2') (nxt s2) (nxt s2').
Proof.
  intros E A H ad s2 S. destruct (execs_runs _ _ _ _ _ _ ad s2 E A S) as (l' & s' & R & S' & Fr & Kp).
  destruct (H _ s' S') as (l3 & s3 & R3 & S3 & F3 & K3). exists (l' ++ l3)%list, s3.
  split; [now apply R|]. rewrite app_assoc. split; [exact S3|]. split; [|eapply kept_trans; eauto].
  intros a' I. apply in_app_iff in I. destruct I as [I|I]; [auto|]. apply F3 in I. destruct Kp. lia.
Qed.
End Execs.

(** bodies that end in return *)
Definition rstep (c : stmt) (w w' : @st1 T) (v : val) : Prop :=
  forall ad s2, sat ad w s2 -> exists l s2', runs P c s2 (Ok (s2', Ret v)) /\ sat (ad ++ l)%list w' s2' /\
    fresh ad (nxt s2) l /\ kept ad (mem s2) (mem s2') (nxt s2) (nxt s2').
Lemma rstep_seq a b w1 w2 w3 v : gstep P a w1 w2 -> rstep b w2 w3 v -> rstep (SSeq a b) w1 w3 v.
Proof.
  intros H1 H2 ad s S. destruct (H1 ad s S) as (l1 & s1 & R1 & S1 & F1' & K1).
  destruct (H2 _ s1 S1) as (l3 & s3 & R3 & S3 & F3 & K3).
  exists (l1 ++ l3)%list, s3. split; [eapply runs_seq; eauto|]. rewrite app_assoc. split; [exact S3|].
  split; [|eapply kept_trans; eauto].
  intros a' I. apply in_app_iff in I. destruct I as [I|I]; [auto|]. apply F3 in I. destruct K1. lia.
Qed.
Lemma rstep_ret e w v : eval1 w e [] = Some (v, [], []) -> (forall b o, v <> VP b o) -> rstep (SRet e) w w v.
Proof.
  intros E N ad s2 S. destruct (eval1_ok _ _ _ S _ _ _ _ _ E I) as (v2 & E2 & R).
  assert (v2 = v). { destruct v as [z|t|b o|]; cbn in R; auto. now elim (N b o). } subst v2.
  exists [], s2. rewrite app_nil_r. split; [now apply runs_ret|]. split; [exact S|]. split; [apply fresh_nil|apply kept_refl].
Qed.
Theorem calls_rstep f d vs vs2 e ad os h k w1 w' v : P f = Some d -> bindp1 (f_params d) vs [] = Some e ->
  rstep (f_body d) (mk1 e os) w1 v -> cut (List.length os) [] w1 = Some w' ->
  msim ad os h k -> Forall2 (rvr ad) vs vs2 ->
  exists st, calls P f vs2 h k (Ok (st, Ret v)) /\ msim ad (m1 w') (mem st) (nxt st) /\ kept ad h (mem st) k (nxt st).
Proof.
  intros PF B ST CU H R.
  destruct (bindp1_ok ad _ _ _ _ _ (fun _ => None) B R) as (E' & B1 & B2); [intros x v'; discriminate|].
  destruct (ST ad (mkSt E' h k)) as (l & st & RB & S & Fr & Kp).
  { split; [exact B2|exact H]. }
  exists st. split; [|split; [|exact Kp]]. { unfold calls. rewrite PF, B1. exact RB. }
  unfold cut in CU. cbv zeta in CU. destruct H as (_ & L & _). rewrite <- L in *.
  destruct (forallb (ino1 (List.length ad)) (firstn (List.length ad) (m1 w1))) eqn:F; [|discriminate].
  injection CU as <-. apply (sim_cut ad l [] w1 st) in S; [|exact F]. apply S.
Qed.
Lemma gstep_refl w : gstep P SSkip w w.
Proof. apply gstep_step, step_refl. Qed.
Lemma gstep_if (d : bool) c a b w w' : cond1 c w d -> gstep P (if d then a else b) w w' -> gstep P (SIf c a b) w w'.
Proof.
  intros C H ad s S. destruct (cond1_ok _ _ _ _ _ C S) as (v & E & TR). destruct (H ad s S) as (l & s' & R & S' & K).
  exists l, s'. split; [eapply runs_if; eauto|auto].
Qed.
End Fold.
