(** Objects and call sequences on which the hypotheses of the object properties hold: with
    the intended loop counter no call fails for valid arguments, in any arithmetic. *)
From Coq Require Import ZifyBool.
From Verif Require Import Base Scalar EllSpec EllModel AssemblyModel AsmPure MicroModel OutputModel NewtonBase ApiBase ApiRun ApiHist ApiExact Build ApiSpec ApiProps.

Section C.
Context {T : Type} `{OT : Ops T}.

Lemma counting_good fuel e : (40 <= fuel)%nat -> ~ nbad fuel counting e.
Proof.
  intros Hf [(_ & H)|(j & _ & H)]; [|discriminate]. destruct (H 40) as (i & [= <-] & Hi); [lia|]. unfold nr_its in Hi. lia.
Qed.
Definition fuel40 : nat := Z.to_nat 40.
Definition cnt2 : Z -> Z -> peek := fun _ _ => counting.
Lemma fuel40_ok : (40 <= fuel40)%nat. Proof. unfold fuel40. lia. Qed.

(** calls that cannot fail on an object of dimension d *)
Definition harmless (d : Z) (c : call T) : Prop :=
  match c with
  | SetStrain _ eps => (6 <= length eps)%nat
  | NlFlag _ | UpdateVars => True
  | Homogenize fuel orc => (40 <= fuel)%nat /\ forall j i, orc j i = counting
  | Output fuel pk _ _ => (40 <= fuel)%nat /\ pk = counting
  | _ => False
  end.
Lemma harmless_ok (o0 : obj T) (fs0 : files T) cs : is_object o0 -> Forall (harmless (v_dim (o_env o0))) cs ->
  exists o fs rs, run cs (o0, fs0) = Ok (o, fs, rs).
Proof.
  intros O H. destruct (run cs (o0, fs0)) as [((o, fs), rs)|e] eqn:E; [exists o, fs, rs; reflexivity|].
  destruct (safe o0 fs0 cs e O E) as (a & c & b & -> & X). apply Forall_elt in H. exfalso. destruct c; cbn in H.
  - destruct X as (_ & X). unfold nvoi in X. destruct (v_dim (o_env o0) =? 2); lia.
  - contradiction.
  - contradiction.
  - contradiction.
  - destruct H as (F & H). destruct X as (j & i & X). rewrite H in X. exact (counting_good _ _ F X).
  - contradiction.
  - destruct H as (F & ->). destruct X as (X & _). exact (counting_good _ _ F X).
  - contradiction.
Qed.
Lemma harmless_runs (o0 : obj T) (fs0 : files T) cs : is_object o0 -> Forall (harmless (v_dim (o_env o0))) cs ->
  exists o fs, reaches o0 cs o fs.
Proof. intros O H. destruct (harmless_ok o0 fs0 cs O H) as (o & fs & rs & E). exists o, fs, fs0, rs. exact E. Qed.

(** every valid argument list gives an object, with any threshold *)
Definition flat_junk (tol : T) : junk T := mkJunk (fun _ => Some (ofZ 0)) (fun _ => Some (ofZ 0)) (fun _ => Some (ofZ 0)) (Some tol).
Lemma flat_total tol : total_junk (flat_junk tol).
Proof. constructor; cbn; eauto. Qed.
Lemma object_exists dim nx ny nz mtype mp mt ps tol : valid_args dim nx ny nz mtype mp mt ps ->
  exists o, is_object o /\ env_of dim nx ny nz mtype mp mt ps tol (o_env o).
Proof.
  intros A. pose proof (construct_ok fuel40 (fun _ => counting) (flat_junk tol) dim nx ny nz mtype mp mt ps A (flat_total tol)) as H.
  destruct (construct fuel40 (fun _ => counting) (flat_junk tol) dim [nx; ny; nz] mtype mp mt ps) as [o|e] eqn:E.
  - destruct H as (_ & (t & [= <-] & V) & _). exists o. split; [|exact V]. exists dim, nx, ny, nz, mtype, mp, mt, ps, fuel40, (fun _ => counting), (flat_junk tol).
    split; [exact A|]. split; [apply flat_total|exact E].
  - destruct H as (i & H). elim (counting_good _ _ fuel40_ok H).
Qed.
Definition zeros (n : nat) : list T := repeat (ofZ 0) n.
Lemma args3 nx ny nz : 2 <= nx -> 2 <= ny -> 2 <= nz -> valid_args 3 nx ny nz 0 (zeros 5) [1; 2] (zeros 20).
Proof. intros. constructor; try lia; unfold zeros; rewrite ?repeat_length; try lia. exists 1, 2, []. unfold mat_type_ok. auto. Qed.
Lemma args2 nx ny : 2 <= nx -> 2 <= ny -> valid_args 2 nx ny 1 1 (zeros 5) [1; 0] (zeros 20).
Proof. intros. constructor; try lia; unfold zeros; rewrite ?repeat_length; try lia. exists 1, 0, []. unfold mat_type_ok. auto. Qed.
End C.

(** ** Named cases, exact arithmetic *)
From Coq Require Import Reals Lra.
Open Scope Z_scope.
Definition eps6 (x : R) : list R := [x; x; x; x; x; x].
Definition hom : call R := Homogenize fuel40 cnt2.
(** a unit cube with a stiff plastic sphere of radius 1/5 ... and the parameters of the two materials *)
Definition mp5 : list R := [1; 1; 1; / 5; 1000]%R.
Definition ps20 : list R := [100; / 4; / 100; 5; 0; 0; 0; 0; 0; 0; 3000; / 3; / 10; 2; 0; 0; 0; 0; 0; 0]%R.
Lemma real_args3 nx ny nz t0 t1 : 2 <= nx -> 2 <= ny -> 2 <= nz -> mat_type_ok t0 -> mat_type_ok t1 -> valid_args 3 nx ny nz 0 mp5 [t0; t1] ps20.
Proof. intros. constructor; try lia; [cbn; lia|exists t0, t1, []; auto|cbn; lia]. Qed.
Lemma real_args2 nx ny t0 t1 : 2 <= nx -> 2 <= ny -> mat_type_ok t0 -> mat_type_ok t1 -> valid_args 2 nx ny 1 1 mp5 [t0; t1] ps20.
Proof. intros. constructor; try lia; [cbn; lia|exists t0, t1, []; auto|cbn; lia]. Qed.
Lemma types_ok : mat_type_ok 0 /\ mat_type_ok 1 /\ mat_type_ok 2.
Proof. unfold mat_type_ok. lia. Qed.
(** two Gauss points set, homogenised, committed; one of them set again *)
Definition story : list (call R) :=
  [SetStrain 7 (eps6 1); SetStrain 3 (eps6 0); hom; UpdateVars; SetStrain 7 (eps6 2); Output fuel40 counting 1 7].
Lemma story_harmless d : Forall (harmless d) story.
Proof. unfold story. repeat constructor; cbn; lia. Qed.
Lemma story_runs tol : exists o0 o fs, is_object o0 /\ env_of 3 4 5 3 0 mp5 [1; 2] ps20 tol (o_env o0) /\ reaches o0 story o fs.
Proof.
  destruct (object_exists 3 4 5 3 0 mp5 [1; 2] ps20 tol (real_args3 4 5 3 1 2 ltac:(lia) ltac:(lia) ltac:(lia) ltac:(apply types_ok) ltac:(apply types_ok))) as (o0 & O & E).
  destruct (harmless_runs o0 (mkFiles [] [] [] [] []) story O (story_harmless _)) as (o & fs & R). exists o0, o, fs. auto.
Qed.
Lemma story2_runs tol : exists o0 o fs, is_object o0 /\ env_of 2 4 5 1 1 mp5 [1; 0] ps20 tol (o_env o0) /\ v_dim (o_env o0) = 2 /\ reaches o0 story o fs.
Proof.
  destruct (object_exists 2 4 5 1 1 mp5 [1; 0] ps20 tol (real_args2 4 5 1 0 ltac:(lia) ltac:(lia) ltac:(apply types_ok) ltac:(apply types_ok))) as (o0 & O & E).
  destruct (harmless_runs o0 (mkFiles [] [] [] [] []) story O (story_harmless _)) as (o & fs & R).
  exists o0, o, fs. split; [exact O|]. split; [exact E|]. split; [exact (eo_dim _ _ _ _ _ _ _ _ _ _ E)|exact R].
Qed.
Lemma story_facts : set_ids story = [7; 3; 7] /\ first_use (set_ids story) = [7; 3] /\ last_set 7 (eps6 2) story /\ homogenised 3 story /\
  ~ In 5 (set_ids story).
Proof.
  split; [reflexivity|]. split; [reflexivity|]. split; [|split].
  - exists [SetStrain 7 (eps6 1); SetStrain 3 (eps6 0); hom; UpdateVars], [Output fuel40 counting 1 7]. split; [reflexivity|].
    intros e [H|[]]. discriminate.
  - exists [SetStrain 7 (eps6 1)], (eps6 0), [hom; UpdateVars; SetStrain 7 (eps6 2); Output fuel40 counting 1 7], fuel40, cnt2. split; [reflexivity|now left].
  - cbn. lia.
Qed.
(** every later call of a harmless continuation *)
Lemma story_then tol c : harmless 3 c -> exists o0 o fs o' fs' r, is_object o0 /\ env_of 3 4 5 3 0 mp5 [1; 2] ps20 tol (o_env o0) /\ reaches o0 story o fs /\ step c (o, fs) = Ok (o', fs', r).
Proof.
  intros Hc. destruct (object_exists 3 4 5 3 0 mp5 [1; 2] ps20 tol (real_args3 4 5 3 1 2 ltac:(lia) ltac:(lia) ltac:(lia) ltac:(apply types_ok) ltac:(apply types_ok))) as (o0 & O & E).
  destruct (harmless_runs o0 (mkFiles [] [] [] [] []) (story ++ [c]) O) as (o' & fs' & fs0 & rs & R).
  { apply Forall_app. split; [apply story_harmless|]. constructor; [exact Hc|constructor]. }
  rewrite run_app in R. destruct (run story (o0, _)) as [((o, fs), rs1)|] eqn:E1; cbn [bind fst snd] in R; [|discriminate]. cbn [run] in R.
  destruct (step c (o, fs)) as [((o2, fs2), r)|] eqn:E2; cbn [bind fst snd] in R; [|discriminate]. injection R as <- <- _.
  exists o0, o, fs, o2, fs2, r. split; [exact O|]. split; [exact E|]. split; [|exact E2]. eexists _, _. exact E1.
Qed.
Lemma story_hom tol : exists o0 o fs o' fs' r, is_object o0 /\ env_of 3 4 5 3 0 mp5 [1; 2] ps20 tol (o_env o0) /\ reaches o0 story o fs /\ step hom (o, fs) = Ok (o', fs', r) /\
  exists g, lookup 7 (o_gps o) = Some g /\ stored (o_env o) g (eps6 2).
Proof.
  destruct (story_then tol hom) as (o0 & o & fs & o' & fs' & r & O & E & R & H); [cbn; unfold fuel40; split; [lia|reflexivity]|].
  exists o0, o, fs, o', fs', r. do 4 (split; [assumption|]). destruct (keyed_store o0 story o fs O R) as (_ & _ & _ & K). apply K. apply story_facts.
Qed.
