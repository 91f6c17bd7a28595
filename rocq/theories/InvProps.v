(** The invariant recorded for the convergence log. *)
From Coq Require Import Reals Lra ZifyBool.
From Verif Require Import Base Scalar EllModel AssemblyModel MicroModel OutputModel ApiBase ApiRun ApiSpec ApiExact ApiHist Build ApiProps ApiCases ApiCommit.
Open Scope Z_scope.

Section Inv.
Context {T : Type} {OT : Ops T}.
Implicit Types (o : obj T) (g : gp T).

Lemma recorded_gen o0 cs o fs fuel orc o' fs' r id g : is_object o0 -> reaches o0 cs o fs ->
  step (Homogenize fuel orc) (o, fs) = Ok (o', fs', r) -> lookup id (o_gps o) = Some g ->
  exists g', lookup id (o_gps o') = Some g' /\
    g_inv g' = if oltb (oopp (ofZ (10 ^ 10))) (oabs (predicted_trace o g)) then oabs (predicted_trace o g) else oopp (ofZ (10 ^ 10)).
Proof.
  intros O R E L. destruct (reach_inv o0 cs o fs O R) as (K & _). pose proof (step_ok (Homogenize fuel orc) o fs K) as H. rewrite E in H.
  destruct H as (K' & _ & G). cbn [gps_rel] in G.
  pose proof (rel_lookup _ _ _ id (homog_rel_id _ _ _ _) G) as X. rewrite L in X. destruct (lookup id (o_gps o')) as [g'|]; [|contradiction].
  destruct X as (jj & w1 & w2 & inv & _ & _ & _ & (_ & _ & _ & _ & _ & _ & Ei & Ev & _)). exists g'. split; [reflexivity|].
  rewrite Ei, Ev. reflexivity.
Qed.
(** only homogenize changes it *)
Lemma inv_frame o0 cs o fs c o' fs' r id g : is_object o0 -> reaches o0 cs o fs -> (forall f orc, c <> Homogenize f orc) ->
  step c (o, fs) = Ok (o', fs', r) -> lookup id (o_gps o) = Some g ->
  exists g', lookup id (o_gps o') = Some g' /\ g_inv g' = g_inv g.
Proof.
  intros O R Hc E L. destruct (reach_inv o0 cs o fs O R) as (K & _). pose proof (step_ok c o fs K) as H. rewrite E in H.
  destruct H as (K' & _ & G).
  destruct c; cbn [gps_rel] in G; try (exists g; split; [now rewrite G|reflexivity]).
  - destruct G as (_ & Oth & g1 & L1 & _ & X). destruct (Z.eq_dec id id0) as [->|Hne].
    + exists g1. split; [exact L1|]. rewrite L in X. rewrite X. reflexivity.
    + exists g. split; [now rewrite (Oth id Hne)|reflexivity].
  - exfalso. exact (Hc fuel orc eq_refl).
  - assert (Q : forall a b, upd_rel (o_env o) a b -> g_id b = g_id a) by (intros a b (Q & _); exact Q).
    pose proof (rel_lookup _ _ _ id Q G) as X. rewrite L in X. destruct (lookup id (o_gps o')) as [g'|]; [|contradiction].
    destruct X as (_ & _ & _ & _ & _ & _ & X & _). eauto.
Qed.
Lemma inv_kept o0 cs o fs bs o' fs' rs id g : is_object o0 -> reaches o0 cs o fs -> no_homogenize bs ->
  run bs (o, fs) = Ok (o', fs', rs) -> lookup id (o_gps o) = Some g ->
  exists g', lookup id (o_gps o') = Some g' /\ g_inv g' = g_inv g.
Proof.
  intros O. revert cs o fs rs g. induction bs as [|c bs IH]; intros cs o fs rs g R N E L; cbn [run] in E.
  - injection E as <- _ _. eauto.
  - destruct (step c (o, fs)) as [((o1, fs1), r)|] eqn:Es; cbn [bind fst snd] in E; [|discriminate].
    destruct (run bs (o1, fs1)) as [((o2, fs2), rs2)|] eqn:Er; cbn [bind fst snd] in E; [|discriminate]. injection E as <- <- _.
    destruct (inv_frame o0 cs o fs c o1 fs1 r id g O R) as (g1 & L1 & I1); try assumption.
    { intros f q ->. apply (N f q). now left. }
    destruct (IH (cs ++ [c]) o1 fs1 rs2 g1) as (g2 & L2 & I2); try assumption.
    { exact (reach_step _ _ _ _ _ _ _ _ R Es). }
    { intros f q I. apply (N f q). now right. }
    exists g2. split; [exact L2|congruence].
Qed.
End Inv.

Open Scope R_scope.
Theorem recorded (o0 : obj R) cs o fs fuel orc o' fs' r bs o2 fs2 rs id g : is_object o0 -> reaches o0 cs o fs ->
  step (Homogenize fuel orc) (o, fs) = Ok (o', fs', r) -> no_homogenize bs -> run bs (o', fs') = Ok (o2, fs2, rs) ->
  lookup id (o_gps o) = Some g ->
  exists g2, lookup id (o_gps o2) = Some g2 /\ g_inv g2 = Rabs (predicted_trace o g).
Proof.
  intros O R E N E2 L. destruct (recorded_gen o0 cs o fs fuel orc o' fs' r id g O R E L) as (g' & L' & I).
  destruct (inv_kept o0 (cs ++ [Homogenize fuel orc]) o' fs' bs o2 fs2 rs id g' O (reach_step _ _ _ _ _ _ _ _ R E) N E2 L') as (g2 & L2 & I2).
  exists g2. split; [exact L2|]. rewrite I2, I. pose proof (Rabs_pos (predicted_trace o g)) as P.
  change (oabs (predicted_trace o g)) with (Rabs (predicted_trace o g)).
  replace (oltb _ _) with true; [reflexivity|]. symmetry. unfold oltb, oopp, ofZ, ROps.
  unfold Rltb. destruct Rlt_dec as [|H]; [reflexivity|]. exfalso. apply H. change (10 ^ 10)%Z with 10000000000%Z. fold (Rabs (predicted_trace o g)) in *. apply Rlt_le_trans with 0; [|exact P]. lra.
Qed.

(** the decision and the record agree *)
Theorem decided (o0 : obj R) cs o fs fuel orc o' fs' r id g : is_object o0 -> reaches o0 cs o fs ->
  step (Homogenize fuel orc) (o, fs) = Ok (o', fs', r) -> lookup id (o_gps o) = Some g -> 
  exists g', lookup id (o_gps o') = Some g' /\ (below o g <-> g_inv g' < v_inv_tol (o_env o)).
Proof.
  intros O R E L. destruct (recorded o0 cs o fs fuel orc o' fs' r [] o' fs' [] id g O R E) as (g' & L' & I); [now intros f q []|reflexivity|exact L|].
  exists g'. split; [exact L'|]. rewrite I. unfold below. change (oltb (oabs (predicted_trace o g)) (v_inv_tol (o_env o))) with (Rltb (Rabs (predicted_trace o g)) (v_inv_tol (o_env o))). apply Rltb_true.
Qed.
Lemma inv_ex : forall tol : R, exists o0 o fs o' fs' r o2 fs2 rs g, is_object o0 /\ env_of 3 4 5 3 0 mp5 [1; 2]%Z ps20 tol (o_env o0) /\ reaches o0 story o fs /\
  step hom (o, fs) = Ok (o', fs', r) /\ no_homogenize [UpdateVars (T := R); NlFlag 7] /\ run [UpdateVars; NlFlag 7] (o', fs') = Ok (o2, fs2, rs) /\ lookup 7 (o_gps o) = Some g.
Proof.
  intros tol. destruct (story_hom tol) as (o0 & o & fs & o' & fs' & r & O & En & R & E & g & L & _).
  destruct (update_frame o0 (story ++ [hom]) o' fs' O (reach_step _ _ _ _ _ _ _ _ R E)) as (o2 & E2 & _).
  exists o0, o, fs, o', fs', r, o2, fs', [RUnit; RInt (get_nl_flag 7 (o_gps o2))], g.
  split; [exact O|]. split; [exact En|]. split; [exact R|]. split; [exact E|]. split.
  { intros f q [H|[H|[]]]; discriminate. }
  split; [|exact L]. cbn [run]. rewrite E2. reflexivity.
Qed.
