(** Runs of the small memory of Sym.v put together: sequences and loops with symbolic bounds,
    between states given by the variables and objects that are still of interest. *)
From Coq Require Import String.
From Verif Require Import Base Scalar Clite CliteRules Sym.
Local Open Scope string_scope.
Local Open Scope Z_scope.

Section Step.
Context {T : Type} `{OT : Ops T}.
Notation val := (@val T). Notation obj := (@obj T). Notation obj1 := (@obj1 T).
Notation state := (@state T).
Variable P : string -> option fdef.
Variable SM : string -> option (@summary T).
Hypothesis SMok : forall f sm, SM f = Some sm -> sum_ok P f sm.

(** nothing points past the first [n] objects *)
Definition inr1 (n : nat) (v : val) : bool :=
  match v with VP b _ => b <? Z.of_nat n | _ => true end.
Definition inf1 (n : nat) (fs : list (string * option val)) : bool :=
  forallb (fun x => match snd x with Some v => inr1 n v | None => true end) fs.
Definition ino1 (n : nat) (o : option obj1) : bool :=
  match o with
  | Some (S1 fs) | Some (R1 _ fs) => inf1 n fs
  | Some (V1 _ l) => forallb (inf1 n) l
  | _ => true
  end.

Lemma at1_cut {A} (l l' : list A) b a : at1 (l ++ l')%list b = Some a -> b < Z.of_nat (List.length l) -> at1 l b = Some a.
Proof.
  intros E L. pose proof (at1_lt _ _ _ E) as (B0 & _). destruct (at1_some l b) as (a' & E'); [lia|].
  rewrite E'. apply (at1_app l l') in E'. congruence.
Qed.
Lemma rvr_cut ad l v v2 : rvr (ad ++ l)%list v v2 -> inr1 (List.length ad) v = true -> rvr ad v v2.
Proof.
  destruct v; cbn; auto. intros (a & E & ->) L. apply Z.ltb_lt in L. exists a. split; [|reflexivity].
  eapply at1_cut; eauto.
Qed.
Lemma inf1_get n fs f v : inf1 n fs = true -> fget fs f = Some (Some v) -> inr1 n v = true.
Proof.
  unfold inf1. induction fs as [|[g w] fs IH]; cbn; [discriminate|]. intros H E. apply andb_prop in H.
  destruct H as (H1 & H2). destruct (String.eqb f g); [injection E as ->; exact H1|auto].
Qed.
Lemma rfs_cut ad l fs fs2 : rfs (ad ++ l)%list fs fs2 -> inf1 (List.length ad) fs = true -> rfs ad fs fs2.
Proof.
  intros R H f w F. destruct (R f w F) as (w2 & F2 & Q). exists w2. split; [exact F2|].
  destruct w as [v|]; [|exact I]. destruct Q as (v2 & -> & Q). exists v2. split; [reflexivity|].
  eapply rvr_cut; eauto. eapply inf1_get; eauto.
Qed.
Lemma ro_cut ad l o o2 : ro (ad ++ l)%list o o2 -> ino1 (List.length ad) (Some o) = true -> ro ad o o2.
Proof.
  destruct o; cbn; auto.
  - intros (fs2 & -> & R) H. exists fs2. split; [reflexivity|]. eapply rfs_cut; eauto.
  - intros (-> & R) H. split; [reflexivity|]. eapply rfs_cut; eauto.
  - intros (-> & R) H. split; [reflexivity|]. intros i fs E. destruct (R i fs E) as (fs2 & E2 & Q).
    exists fs2. split; [exact E2|]. eapply rfs_cut; eauto. rewrite forallb_forall in H. apply H.
    eapply nth_error_In; eauto.
Qed.

(** the variables [xs] that do not point to something left behind *)
Fixpoint pick (n : nat) (xs : list string) (e : list (string * val)) : list (string * val) :=
  match xs with
  | [] => []
  | x :: xs => match look1 x e with
               | Some v => if inr1 n v then (x, v) :: pick n xs e else pick n xs e
               | None => pick n xs e
               end
  end.
Lemma pick_look n xs e x v : look1 x (pick n xs e) = Some v -> look1 x e = Some v /\ inr1 n v = true.
Proof.
  induction xs as [|y xs IH]; cbn; [discriminate|]. destruct (look1 y e) as [w|] eqn:E; [|exact IH].
  destruct (inr1 n w) eqn:I; [|exact IH]. cbn. destruct (String.eqb_spec x y); [|exact IH].
  subst y. intros [= ->]. auto.
Qed.

(** a state: variables and objects *)
Definition sat (ad : list Z) (w : @st1 T) (s2 : state) : Prop := sim ad w s2.
Definition step (c : stmt) (w w' : @st1 T) : Prop :=
  forall ad s2, sat ad w s2 -> exists s2', runs P c s2 (Ok (s2', Nrm)) /\ sat ad w' s2' /\
    kept ad (mem s2) (mem s2') (nxt s2) (nxt s2').

Definition out2 (n : nat) (xs : list string) (r : option ((@st1 T * @sig T) * list bool * list Prop))
  : option (@st1 T * list Prop) :=
  match r with
  | Some ((s, Nrm), _, p) =>
      let m := firstn n (m1 s) in
      if forallb (ino1 n) m then Some (mk1 (pick n xs (e1 s)) m, p) else None
  | _ => None
  end.

Lemma sim_cut ad l xs s s2 : sim (ad ++ l)%list s s2 ->
  forallb (ino1 (List.length ad)) (firstn (List.length ad) (m1 s)) = true ->
  sim ad (mk1 (pick (List.length ad) xs (e1 s)) (firstn (List.length ad) (m1 s))) s2.
Proof.
  intros (H1 & (H2 & H3 & H4 & H5)) F. split; [|split; [|split; [|split]]].
  - intros x v X. apply pick_look in X. destruct X as (X & I). destruct (H1 _ _ X) as (v2 & Y & R).
    exists v2. split; [exact Y|]. eapply rvr_cut; eauto.
  - cbn [m1]. intros b o a O A. pose proof (at1_lt _ _ _ A) as L.
    assert (O' : at1 (m1 s) b = Some (Some o)).
    { rewrite <- (firstn_skipn (List.length ad) (m1 s)). now apply at1_app. }
    destruct (H2 b o a O') as (o2 & M & R); [now apply at1_app|]. exists o2. split; [exact M|].
    eapply ro_cut; eauto. rewrite forallb_forall in F. apply F. eapply at1_in; eauto.
  - cbn [m1]. rewrite firstn_length. rewrite app_length in H3. lia.
  - clear -H4. induction ad as [|a ad IH]; [constructor|]. cbn in H4. inversion H4; subst. constructor; [|auto].
    intros I. apply H1. apply in_app_iff. now left.
  - intros a I. apply H5. apply in_app_iff. now left.
Qed.

Theorem step_exec n c w q xs w' p : out2 (List.length (m1 w)) xs (exec1 P SM n c w q) = Some (w', p) ->
  alls p -> step c w w'.
Proof.
  intros E A ad s2 S. unfold out2 in E.
  destruct (exec1 P SM n c w q) as [[[[s' g] q2] p']|] eqn:X; [|discriminate].
  destruct g; try discriminate. cbv zeta in E.
  destruct (forallb (ino1 (List.length (m1 w))) (firstn (List.length (m1 w)) (m1 s'))) eqn:F; [|discriminate].
  injection E as <- <-.
  destruct (exec1_ok P SM SMok _ _ _ s2 _ _ _ _ _ ad X A S) as (l & s2' & g2 & R & G & S' & Fr & Kp & _).
  apply rgr_nrm in G. subst g2. exists s2'. split; [exact R|]. split; [|exact Kp].
  destruct S as (_ & _ & L & _). rewrite <- L in *. now apply (sim_cut ad l xs).
Qed.

Lemma kept_same ad (h1 h2 h3 : Z -> option obj) k1 k2 k3 : kept ad h1 h2 k1 k2 -> kept ad h2 h3 k2 k3 -> kept ad h1 h3 k1 k3.
Proof. intros (A1 & A2) (B1 & B2). split; [lia|]. intros c C N. rewrite B2; [auto|lia|exact N]. Qed.
Lemma step_seq a b w1 w2 w3 : step a w1 w2 -> step b w2 w3 -> step (SSeq a b) w1 w3.
Proof.
  intros H1 H2 ad s S. destruct (H1 ad s S) as (s1 & R1 & S1 & K1). destruct (H2 ad s1 S1) as (s3 & R3 & S3 & K3).
  exists s3. split; [eapply runs_seq; eauto|]. split; [exact S3|]. eapply kept_same; eauto.
Qed.
Lemma step_refl w : step SSkip w w.
Proof. intros ad s S. exists s. split; [apply runs_skip|]. split; [exact S|apply kept_refl]. Qed.

(** fewer variables *)
Definition sub1 (e' e : list (string * val)) : Prop := forall x v, look1 x e' = Some v -> look1 x e = Some v.
Lemma step_forget c w e e' m : step c w (mk1 e m) -> sub1 e' e -> step c w (mk1 e' m).
Proof.
  intros H S ad s2 SIM. destruct (H ad s2 SIM) as (s2' & R & (E & M) & K). exists s2'. split; [exact R|].
  split; [|exact K]. split; [|exact M]. intros x v X. apply E. now apply S.
Qed.
Lemma step_forget1 c w' e e' m : step c (mk1 e' m) w' -> sub1 e' e -> step c (mk1 e m) w'.
Proof.
  intros H S ad s2 (E & M). apply H. split; [|exact M]. intros x v X. apply E. now apply S.
Qed.

(** a condition *)
Definition cond1 (c : exp) (w : @st1 T) (d : bool) : Prop := exists v p, eval1 w c [] = Some (v, [], p) /\ alls p /\ truth v = Ok d.
Lemma cond1_ok c w d ad s2 : cond1 c w d -> sat ad w s2 -> exists v, eval s2 c = Ok v /\ truth v = Ok d.
Proof.
  intros (v & p & E & A & TR) S. destruct (eval1_ok _ _ _ S _ _ _ _ _ E A) as (v2 & E2 & R). exists v2.
  split; [exact E2|]. destruct v; cbn in R; try (subst v2; exact TR). destruct R as (a & _ & ->). exact TR.
Qed.
Lemma step_if (d : bool) c a b w w' : cond1 c w d -> step (if d then a else b) w w' -> step (SIf c a b) w w'.
Proof.
  intros C H ad s S. destruct (cond1_ok _ _ _ _ _ C S) as (v & E & TR). destruct (H ad s S) as (s' & R & S' & K).
  exists s'. split; [eapply runs_if; eauto|auto].
Qed.
Lemma step_while_stop c b st w : cond1 c w false -> step (SWhile c b st) w w.
Proof.
  intros C ad s S. destruct (cond1_ok _ _ _ _ _ C S) as (v & E & TR). exists s.
  split; [eapply runs_while_stop; eauto|]. split; [exact S|apply kept_refl].
Qed.
Lemma step_while_go c b st w w1 w2 w3 : cond1 c w true -> step b w w1 -> step st w1 w2 ->
  step (SWhile c b st) w2 w3 -> step (SWhile c b st) w w3.
Proof.
  intros C H1 H2 H3 ad s S. destruct (cond1_ok _ _ _ _ _ C S) as (v & E & TR).
  destruct (H1 ad s S) as (s1 & R1 & S1 & K1). destruct (H2 ad s1 S1) as (s2 & R2 & S2 & K2).
  destruct (H3 ad s2 S2) as (s3 & R3 & S3 & K3). exists s3.
  split; [eapply runs_while_go; eauto|]. split; [exact S3|]. eapply kept_same; [|exact K3]. eapply kept_same; eauto.
Qed.

(** for (int x = lo; c; x++) body *)
Lemma step_for x lo c body w (Wd : Z -> @st1 T) (Wb : Z -> @st1 T) l h w0 :
  l <= h -> step (SSet x lo) w (Wd l) ->
  (forall i, l <= i <= h -> cond1 c (Wd i) (i <? h)) ->
  (forall i, l <= i < h -> step body (Wd i) (Wb i)) ->
  (forall i, l <= i < h -> step (SSet x (EBin Add (EV x) (EI 1))) (Wb i) (Wd (i + 1))) ->
  w0 = Wd h -> step (SFor x lo c body) w w0.
Proof.
  intros LH H0 HC HB HI ->. unfold SFor. eapply step_seq; [exact H0|].
  assert (G : forall n i, l <= i <= h -> h - i = Z.of_nat n ->
    step (SWhile c body (SSet x (EBin Add (EV x) (EI 1)))) (Wd i) (Wd h)).
  { induction n as [|n IH]; intros i I E.
    - assert (i = h) by lia. subst i. apply step_while_stop. specialize (HC h I).
      destruct (Z.ltb_spec h h); [lia|exact HC].
    - eapply step_while_go.
      + specialize (HC i I). destruct (Z.ltb_spec i h); [exact HC|lia].
      + apply HB. lia.
      + apply HI. lia.
      + apply IH; lia. }
  apply (G (Z.to_nat (h - l))); lia.
Qed.


(** the same with new objects at the end *)
Definition gstep (c : stmt) (w w' : @st1 T) : Prop :=
  forall ad s2, sat ad w s2 -> exists l s2', runs P c s2 (Ok (s2', Nrm)) /\ sat (ad ++ l)%list w' s2' /\
    fresh ad (nxt s2) l /\ kept ad (mem s2) (mem s2') (nxt s2) (nxt s2').
Lemma gstep_step c w w' : step c w w' -> gstep c w w'.
Proof.
  intros H ad s S. destruct (H ad s S) as (s' & R & S' & K). exists [], s'. rewrite app_nil_r.
  repeat split; auto; try apply S'; try apply K. apply fresh_nil.
Qed.
Lemma gstep_seq a b w1 w2 w3 : gstep a w1 w2 -> gstep b w2 w3 -> gstep (SSeq a b) w1 w3.
Proof.
  intros H1 H2 ad s S. destruct (H1 ad s S) as (l1 & s1 & R1 & S1 & F1' & K1).
  destruct (H2 _ s1 S1) as (l3 & s3 & R3 & S3 & F3 & K3).
  exists (l1 ++ l3)%list, s3. split; [eapply runs_seq; eauto|]. rewrite app_assoc. split; [exact S3|].
  split; [|eapply kept_trans; eauto].
  intros a' I. apply in_app_iff in I. destruct I as [I|I]; [auto|]. apply F3 in I. destruct K1. lia.
Qed.
Definition cut (n : nat) (xs : list string) (s : @st1 T) : option (@st1 T) :=
  let m := firstn n (m1 s) in if forallb (ino1 n) m then Some (mk1 (pick n xs (e1 s)) m) else None.
Lemma step_gstep xs c w w1 w' : gstep c w w1 -> cut (List.length (m1 w)) xs w1 = Some w' -> step c w w'.
Proof.
  intros H E ad s2 S. destruct (H ad s2 S) as (l & s2' & R & S' & Fr & Kp). exists s2'.
  split; [exact R|]. split; [|exact Kp]. unfold cut in E. cbv zeta in E.
  destruct S as (_ & _ & L & _). rewrite <- L in *.
  destruct (forallb (ino1 (List.length ad)) (firstn (List.length ad) (m1 w1))) eqn:F; [|discriminate].
  injection E as <-. now apply (sim_cut ad l xs).
Qed.

(** a list of statements *)
Fixpoint seqs (l : list stmt) (c : stmt) : stmt := match l with [] => c | a :: l => SSeq a (seqs l c) end.
Fixpoint execs1 (n : nat) (l : list stmt) (s : @st1 T) : M1 (@st1 T) :=
  match l with
  | [] => ret1 s
  | c :: l => bind1 (exec1 P SM n c s) (fun r => match snd r with Nrm => execs1 n l (fst r) | _ => none1 end)
  end.
Definition out3 (r : option (@st1 T * list bool * list Prop)) : option (@st1 T * list Prop) :=
  match r with Some (s, _, p) => Some (s, p) | None => None end.
Lemma gstep_execs n l : forall w q w1 p c w2, out3 (execs1 n l w q) = Some (w1, p) -> alls p ->
  gstep c w1 w2 -> gstep (seqs l c) w w2.
Proof.
  induction l as [|a l IH]; intros w q w1 p c w2 E A H; cbn in E.
  - injection E as <- <-. exact H.
  - unfold out3 in E. destruct (bind1 _ _ q) as [[[s q2] p2]|] eqn:B; [|discriminate]. injection E as <- <-.
    apply bind1_some in B; [|exact A]. destruct B as ([s1 g] & o1 & p1 & p3 & E1 & E2 & A1 & A3).
    destruct g; cbn [fst snd] in E2; try discriminate. cbn [seqs]. eapply gstep_seq.
    + intros ad s2 S. destruct (exec1_ok P SM SMok _ _ _ s2 _ _ _ _ _ ad E1 A1 S) as (l' & s2' & g2 & R & G & S' & Fr & Kp & _).
      apply rgr_nrm in G. subst g2. exists l', s2'. split; [exact R|]. split; [exact S'|]. auto.
    + apply (IH _ o1 s p3); [|exact A3|exact H]. unfold out3. now rewrite E2.
Qed.
Lemma gstep_exec n c w q w1 p : out3 (execs1 n [c] w q) = Some (w1, p) -> alls p -> gstep c w w1.
Proof.
  intros E A ad s2 S. unfold out3 in E. destruct (execs1 n [c] w q) as [[[s q2] p2]|] eqn:B; [|discriminate].
  injection E as <- <-. apply bind1_some in B; [|exact A]. destruct B as ([s1 g] & o1 & p1 & p3 & E1 & E2 & A1 & A3).
  destruct g; cbn [fst snd] in E2; try discriminate. injection E2 as <- <- <-.
  destruct (exec1_ok P SM SMok _ _ _ s2 _ _ _ _ _ ad E1 A1 S) as (l' & s2' & g2 & R & G & S' & Fr & Kp & _).
  apply rgr_nrm in G. subst g2. exists l', s2'. split; [exact R|]. split; [exact S'|]. auto.
Qed.

(** a call *)
Theorem calls_gstep f d vs vs2 e ad os h k w1 w' : P f = Some d -> bindp1 (f_params d) vs [] = Some e ->
  gstep (f_body d) (mk1 e os) w1 -> cut (List.length os) [] w1 = Some w' ->
  msim ad os h k -> Forall2 (rvr ad) vs vs2 ->
  exists st, calls P f vs2 h k (Ok (st, Nrm)) /\ msim ad (m1 w') (mem st) (nxt st) /\ kept ad h (mem st) k (nxt st).
Proof.
  intros PF B ST CU H R. pose proof (step_gstep _ _ (mk1 e os) _ _ ST CU) as ST'.
  destruct (bindp1_ok ad _ _ _ _ _ (fun _ => None) B R) as (E' & B1 & B2); [intros x v; discriminate|].
  destruct (ST' ad (mkSt E' h k)) as (st & RB & S & Kp).
  { split; [exact B2|exact H]. }
  exists st. split; [|split; [apply S|exact Kp]]. unfold calls. rewrite PF, B1. exact RB.
Qed.
Lemma msim_atall0 ad (os : list (option obj1)) h k : msim ad os h k -> atall ad ad os h.
Proof.
  intros M. pose proof (msim_atall ad os h k M ad [] 0%nat) as H. rewrite app_nil_r in H. cbn [firstn skipn] in H.
  destruct M as (_ & L & _). rewrite L, firstn_all in H. apply H; [reflexivity|lia].
Qed.

(** knowing less *)
Definition weaker (w w' : @st1 T) : Prop := forall ad s2, sat ad w s2 -> sat ad w' s2.
Lemma step_weak c w w' w'' : step c w w' -> weaker w' w'' -> step c w w''.
Proof. intros H K ad s S. destruct (H ad s S) as (s' & R & S' & Kp). exists s'. auto. Qed.
Lemma gstep_weak c w w' w'' : gstep c w w' -> weaker w' w'' -> gstep c w w''.
Proof. intros H K ad s S. destruct (H ad s S) as (l & s' & R & S' & Fr & Kp). exists l, s'. auto. Qed.
Definition less (o o' : option obj1) : Prop :=
  match o, o' with
  | _, None => True
  | Some o, Some o' => forall ad o2, ro ad o o2 -> ro ad o' o2
  | None, Some _ => False
  end.
Lemma less_refl o : less o o. Proof. destruct o; cbn; auto. Qed.
Lemma weaker_less e e' m m' : sub1 e' e -> Forall2 less m m' -> weaker (mk1 e m) (mk1 e' m').
Proof.
  intros S F ad s2 (E & (M1 & M2 & M3)). split; [intros x v X; apply E; auto|]. split; [|split; [|exact M3]].
  - cbn [m1] in *. intros b o a O A.
    assert (G : forall n (l l' : list (option obj1)), Forall2 less l l' -> nth_error l' n = Some (Some o) ->
      exists o0, nth_error l n = Some (Some o0) /\ less (Some o0) (Some o)).
    { clear. induction n as [|n IH]; intros l l' F E; inversion F as [|x y l1 l2 LE F']; subst; cbn in *; try discriminate.
      - injection E as ->. destruct x as [x|]; [eauto|contradiction].
      - eauto. }
    unfold at1 in O. destruct (b <? 0) eqn:B; [discriminate|].
    destruct (G _ _ _ F O) as (o0 & N & L).
    destruct (M1 b o0 a) as (o2 & H & R); [unfold at1; now rewrite B|exact A|]. exists o2. split; [exact H|]. now apply L.
  - cbn [m1] in *. rewrite M2. clear -F. induction F; cbn; congruence.
Qed.
Lemma less_nc l : less (Some (D1 l)) (Some (D1 (repeat None (List.length l)))).
Proof.
  intros ad o2 (a & -> & (L & _)). exists a. split; [reflexivity|]. split; [now rewrite repeat_length|].
  intros i v E. apply nth_error_In, repeat_spec in E. discriminate.
Qed.
Lemma less_V l2 l : less (Some (V1 l2 l)) (Some (V1 l2 [])).
Proof. intros ad o2 (-> & _). split; [reflexivity|]. intros i fs E. destruct i; discriminate. Qed.
Lemma less_K a z z' : less (Some (K1 a z)) (Some (K1 a z')).
Proof. intros ad o2 H. exact H. Qed.

(** a run, then forget *)
Definition cut3 (n : nat) xs (r : option (@st1 T * list Prop)) : option (@st1 T * list Prop) :=
  match r with
  | Some (w, q) => match cut n xs w with Some w => Some (w, q) | None => None end
  | None => None
  end.
Lemma step_cut k n a l c w q w' p xs : cut3 k xs (out3 (execs1 n (a :: l) w q)) = Some (w', p) ->
  alls p -> c = block (a :: l) -> k = List.length (m1 w) -> step c w w'.
Proof.
  intros E A -> ->. unfold cut3 in E. destruct (out3 (execs1 n (a :: l) w q)) as [[w1 p1]|] eqn:X; [|discriminate].
  destruct (cut (List.length (m1 w)) xs w1) as [w2|] eqn:C; [|discriminate]. injection E as <- <-.
  refine (step_gstep xs _ _ _ _ _ C). clear C. revert a w q X A. revert p1. induction l as [|b l IH]; intros p1 a w q X A.
  - cbn [block]. eapply gstep_exec; eauto.
  - change (block (a :: b :: l)) with (SSeq a (block (b :: l))).
    unfold out3 in X. destruct (execs1 n (a :: b :: l) w q) as [[[s q2] p2]|] eqn:B; [|discriminate]. injection X as <- <-.
    cbn [execs1] in B. apply bind1_some in B; [|exact A]. destruct B as ([s1 g] & o1 & p3 & p4 & E1 & E2 & A1 & A3).
    destruct g; cbn [fst snd] in E2; try discriminate. eapply gstep_seq.
    + apply (gstep_exec n a w q s1 (p3 ++ [])%list).
      * unfold out3. cbn [execs1]. unfold bind1. rewrite E1. cbn. reflexivity.
      * rewrite app_nil_r. exact A1.
    + apply (IH p4 b s1 o1); [|exact A3]. unfold out3. cbn [execs1]. now rewrite E2.
Qed.
End Step.
