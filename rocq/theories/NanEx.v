(** Cases with NaN: a 3 x 3 node square of one material with E = 1, nu = 1/4. *)
From Coq Require Import ZifyBool Floats.SpecFloat.
From Verif Require Import Base Scalar EllSpec EllModel Grid AssemblyModel AsmPure AsmRun MicroModel OutputModel NewtonBase ApiBase ApiRun ApiHist Build ApiSpec ApiProps ApiCases
  FloatInst NanBase NanRun NanProps.
Open Scope Z_scope.

Definition zer : double := dec 0 1.
Definition mp_f : list double := [dec 1 0; dec 1 0; dec 1 0; dec 5 1; zer].
Definition ps_f : list double := [dec 1 0; dec 25 2; dec 1 0; dec 1 0; zer; zer; zer; zer; zer; zer; dec 1 0; dec 25 2; dec 1 0; dec 1 0; zer; zer; zer; zer; zer; zer].
Definition hom_f : call double := Homogenize fuel40 cnt2.
Definition no_strain : list double := repeat zer 6.
Definition nan_strain : list double := NaN :: repeat zer 5.
Definition no_files : files double := mkFiles [] [] [] [] [].
Notation square := (construct fuel40 (fun _ => counting) (flat_junk zer) 2 [3; 3; 1] 1 mp_f [0; 0] ps_f).

Definition not_nan (x : double) : bool := match x with S754_nan => false | _ => true end.
Definition calm : list (call double) := [SetStrain 2 no_strain; hom_f; GetStress 2].
Definition no_nan (r : reply double) : bool := match r with RBuf (Some l) => forallb not_nan l | _ => false end.
Definition calm_ok (r : res (obj double)) : bool :=
  match r with
  | Ok o => match run calm (o, no_files) with Ok q => no_nan (nth 2 (snd q) RUnit) | Err _ => false end
  | Err _ => false
  end.
Lemma calm_computed : calm_ok square = true.
Proof. vm_compute. reflexivity. Qed.

Lemma args_f dim nz mt : dim = 2 \/ (dim = 3 /\ 2 <= nz) -> valid_args dim 3 3 nz 1 mp_f [0; mt] ps_f \/ ~ mat_type_ok mt.
Proof.
  intros D. destruct (Z.eq_dec mt 0) as [->|]; [left|destruct (Z.eq_dec mt 1) as [->|]; [left|destruct (Z.eq_dec mt 2) as [->|]; [left|right; unfold mat_type_ok; lia]]];
    (constructor; [exact D|lia|lia|lia|unfold mp_f; cbn [length]; lia|eexists _, _, []; unfold mat_type_ok; auto|unfold ps_f; cbn [length]; lia]).
Qed.
Lemma square_args : valid_args 2 3 3 1 1 mp_f [0; 0] ps_f.
Proof. destruct (args_f 2 1 0) as [H|H]; [auto|exact H|]. elim H. unfold mat_type_ok. auto. Qed.
Lemma below_zero (o : obj double) g : v_inv_tol (o_env o) = zer -> ~ below o g.
Proof.
  unfold below. intros ->. generalize (predicted_trace o g) as x. intros x. unfold zer. change (dec 0 1 : double) with (S754_zero false).
  destruct x as [s|s| |s m e]; cbn; discriminate.
Qed.

Lemma not_nan_in l : forallb not_nan l = true -> ~ In NaN l.
Proof. rewrite forallb_forall. intros H I. specialize (H _ I). discriminate. Qed.
Lemma calm_run o0 : calm_ok (Ok o0) = true ->
  exists o fs l, run [SetStrain 2 no_strain; hom_f; GetStress 2] (o0, no_files) = Ok (o, fs, [RUnit; RUnit; RBuf (Some l)]) /\ ~ In NaN l.
Proof.
  unfold calm_ok, calm. destruct (run _ _) as [((o, fs), rs)|] eqn:E; [|discriminate]. cbn [snd]. intros C.
  cbn [run] in E. apply bind_ok in E. destruct E as (((o1, fs1), r1) & E1 & E). cbn [fst snd] in E.
  apply bind_ok in E. destruct E as (((oa, fsa), ra) & E2 & E). injection E as <- <- <-. cbn [fst snd] in *.
  apply bind_ok in E2. destruct E2 as (((o2, fs2), r2) & E2 & E). cbn [fst snd] in E.
  apply bind_ok in E. destruct E as (((ob, fsb), rb) & E3 & E). injection E as <- <- <-. cbn [fst snd] in *.
  apply bind_ok in E3. destruct E3 as (((o3, fs3), r3) & E3 & E). cbn [fst snd bind] in E. injection E as <- <- <-. cbn [nth] in C.
  assert (R1 : r1 = RUnit). { cbn [step] in E1. destruct (_ <? _); [discriminate|]. apply bind_ok in E1. destruct E1 as (? & _ & E1). congruence. }
  assert (R2 : r2 = RUnit). { cbn [step hom_f] in E2. unfold hom_f in E2. cbn [step] in E2. apply bind_ok in E2. destruct E2 as (? & _ & E2). congruence. }
  destruct r3 as [|[l|]|]; try discriminate. exists o3, fs3, l. split; [subst r1 r2; reflexivity|]. now apply not_nan_in.
Qed.
(** the homogenisation of one point changes the answer for another *)
Definition spread (o0 : obj double) : Prop :=
  (exists o fs l, run [SetStrain 2 no_strain; hom_f; GetStress 2] (o0, no_files) = Ok (o, fs, [RUnit; RUnit; RBuf (Some l)]) /\ ~ In NaN l) /\
  (exists o fs, run [SetStrain 1 nan_strain; hom_f; SetStrain 2 no_strain; hom_f; GetStress 2] (o0, no_files) =
     Ok (o, fs, [RUnit; RUnit; RUnit; RUnit; RBuf (Some [NaN; NaN; NaN])])).
Lemma spreads_from o0 : is_object o0 -> env_of 2 3 3 1 1 mp_f [0; 0] ps_f zer (o_env o0) -> calm_ok (Ok o0) = true -> spread o0.
Proof.
  intros O EV C. split; [exact (calm_run o0 C)|]. clear C.
  destruct (harmless_ok o0 no_files [SetStrain 1 nan_strain; hom_f; SetStrain 2 no_strain; hom_f] O) as (o & fs & rs & R).
  { repeat constructor; cbn; unfold fuel40; try reflexivity; lia. }
  pose proof (eo_dim _ _ _ _ _ _ _ _ _ _ EV) as Dim. pose proof (eo_nx _ _ _ _ _ _ _ _ _ _ EV) as Nx. pose proof (eo_ny _ _ _ _ _ _ _ _ _ _ EV) as Ny.
  pose proof (eo_tol _ _ _ _ _ _ _ _ _ _ EV) as Tol. assert (V3 : nvoi (o_env o0) = 3) by (unfold nvoi; rewrite Dim; reflexivity).
  assert (R' := R). change [SetStrain 1 nan_strain; hom_f; SetStrain 2 no_strain; hom_f] with ([SetStrain 1 nan_strain; hom_f; SetStrain 2 no_strain] ++ [hom_f]) in R'.
  apply run_snoc in R'. destruct R' as ((o1, fs1) & rs1 & r & R1 & R2 & ->).
  assert (RC : reaches o0 [SetStrain 1 nan_strain; hom_f; SetStrain 2 no_strain] o1 fs1) by (exists no_files, rs1; exact R1).
  destruct (reach_inv o0 _ o1 fs1 O RC) as (K1 & (Ev & _) & _).
  destruct (lookup_set o0 _ o1 fs1 2 O RC) as (g & Lg); [cbn; auto|].
  assert (A : answers_nan o fs 2).
  { apply (nan_spreads o0 [SetStrain 1 nan_strain] fuel40 cnt2 [SetStrain 2 no_strain] o1 fs1 fuel40 cnt2 o fs r 1 nan_strain 0 O) with (g := g); try (rewrite ?Nx, ?Ny, ?V3; lia).
    - exists [], []. split; [reflexivity|]. intros e [].
    - reflexivity.
    - exact RC.
    - exact R2.
    - exact Lg.
    - intros (B & _). rewrite <- Ev in Tol. exact (below_zero o1 g Tol B). }
  destruct A as (A & _). pose proof (step_ok hom_f o1 fs1 K1) as Q. rewrite R2 in Q. destruct Q as (_ & (Ev2 & _) & _).
  rewrite Ev2, Ev, V3 in A. exists o, fs.
  change [SetStrain 1 nan_strain; hom_f; SetStrain 2 no_strain; hom_f; GetStress 2] with ([SetStrain 1 nan_strain; hom_f; SetStrain 2 no_strain; hom_f] ++ [GetStress 2]).
  rewrite run_app, R. cbn [bind fst snd]. cbn [run]. rewrite A. cbn [bind fst snd]. do 2 f_equal.
  assert (Q : forall c o fs o' fs' r, In c [SetStrain 1 nan_strain; hom_f; SetStrain 2 no_strain] -> step c (o, fs) = Ok (o', fs', r) -> r = RUnit).
  { clear. intros c o fs o' fs' r I E. unfold hom_f in I. destruct I as [<-|[<-|[<-|[]]]]; cbn [step] in E.
    - destruct (_ <? _); [discriminate|]. apply bind_ok in E. destruct E as (? & _ & E). congruence.
    - apply bind_ok in E. destruct E as (? & _ & E). congruence.
    - destruct (_ <? _); [discriminate|]. apply bind_ok in E. destruct E as (? & _ & E). congruence. }
  assert (Q1 : r = RUnit) by (apply (Q hom_f _ _ _ _ _ ltac:(cbn; auto) R2)). subst r.
  assert (Q2 : forall cs s s' rs, run cs s = Ok (s', rs) -> (forall c, In c cs -> In c [SetStrain 1 nan_strain; hom_f; SetStrain 2 no_strain]) -> rs = map (fun _ => RUnit) cs).
  { clear - Q. induction cs as [|c cs IH]; intros s s' rs E I; cbn [run] in E; [injection E as _ <-; reflexivity|].
    apply bind_ok in E. destruct E as (((o1, fs1), r) & E1 & E). apply bind_ok in E. destruct E as ((s2, rs2) & E2 & E). injection E as _ <-. cbn [fst snd map] in *.
    destruct s as (o, fs). rewrite (Q c o fs o1 fs1 r (I c (or_introl eq_refl)) E1). f_equal. apply (IH _ _ _ E2). intros c' H'. apply I. now right. }
  rewrite (Q2 _ _ _ _ R1) by auto. reflexivity.
Qed.
Lemma obj_from dim nx ny nz mtype mp mt ps tol : valid_args dim nx ny nz mtype mp mt ps ->
  calm_ok (construct fuel40 (fun _ => counting) (flat_junk tol) dim [nx; ny; nz] mtype mp mt ps) = true ->
  exists o0, is_object o0 /\ env_of dim nx ny nz mtype mp mt ps tol (o_env o0) /\ calm_ok (Ok o0) = true.
Proof.
  intros A C. pose proof (construct_ok fuel40 (fun _ => counting) (flat_junk tol) dim nx ny nz mtype mp mt ps A (flat_total tol)) as H.
  destruct (construct fuel40 (fun _ => counting) (flat_junk tol) dim [nx; ny; nz] mtype mp mt ps) as [o0|] eqn:E; [|discriminate].
  destruct H as (_ & (t & [= <-] & EV) & _). exists o0. split; [|split; [exact EV|exact C]].
  exists dim, nx, ny, nz, mtype, mp, mt, ps, fuel40, (fun _ => counting), (flat_junk tol). split; [exact A|]. split; [apply flat_total|exact E].
Qed.
Lemma spreads_ex : exists o0 : obj double, is_object o0 /\
  (exists o fs l, run [SetStrain 2 no_strain; hom_f; GetStress 2] (o0, no_files) = Ok (o, fs, [RUnit; RUnit; RBuf (Some l)]) /\ ~ In NaN l) /\
  (exists o fs, run [SetStrain 1 nan_strain; hom_f; SetStrain 2 no_strain; hom_f; GetStress 2] (o0, no_files) =
     Ok (o, fs, [RUnit; RUnit; RUnit; RUnit; RBuf (Some [NaN; NaN; NaN])])).
Proof.
  destruct (obj_from 2 3 3 1 1 mp_f [0; 0] ps_f zer square_args calm_computed) as (o0 & O & EV & C).
  exists o0. split; [exact O|]. exact (spreads_from o0 O EV C).
Qed.

(** the hypotheses of C74 and of the general spread: a 4 x 3 x 5 node cube and a 3 x 3 square, for any threshold *)
Definition nan_story : list (call double) := [SetStrain 2 no_strain; SetStrain 1 nan_strain; hom_f; UpdateVars; SetStrain 1 no_strain].
Lemma nan_story_ok : exists (o0 : obj double) o fs o' fs' r, is_object o0 /\ v_dim (o_env o0) = 3 /\ v_nx (o_env o0) = 4 /\ v_ny (o_env o0) = 3 /\ v_nz (o_env o0) = 5 /\
  last_set 1 nan_strain [SetStrain 2 no_strain; SetStrain 1 nan_strain] /\ lget nan_strain 0 = NaN /\
  reaches o0 nan_story o fs /\ step hom_f (o, fs) = Ok (o', fs', r) /\ (exists g1 g2, lookup 1 (o_gps o) = Some g1 /\ lookup 2 (o_gps o) = Some g2 /\ ~ below o g1 /\ ~ below o g2).
Proof.
  destruct (object_exists 3 4 3 5 0 (zeros 5) [1; 2] (zeros 20) zer (args3 4 3 5 ltac:(lia) ltac:(lia) ltac:(lia))) as (o0 & O & E).
  destruct (harmless_ok o0 no_files (nan_story ++ [hom_f]) O) as (o' & fs' & rs & R).
  { repeat constructor; cbn; unfold fuel40; try reflexivity; lia. }
  apply run_snoc in R. destruct R as ((o, fs) & rs1 & r & R1 & R2 & _). exists o0, o, fs, o', fs', r.
  assert (RC : reaches o0 nan_story o fs) by (exists no_files, rs1; exact R1).
  destruct (reach_inv o0 _ o fs O RC) as (_ & (Ev & _) & _). pose proof (eo_tol _ _ _ _ _ _ _ _ _ _ E) as Tol. rewrite <- Ev in Tol.
  split; [exact O|]. split; [exact (eo_dim _ _ _ _ _ _ _ _ _ _ E)|]. split; [exact (eo_nx _ _ _ _ _ _ _ _ _ _ E)|]. split; [exact (eo_ny _ _ _ _ _ _ _ _ _ _ E)|].
  split; [exact (eo_nz _ _ _ _ _ _ _ _ _ _ E)|]. split; [exists [SetStrain 2 no_strain], []; split; [reflexivity|intros e []]|]. split; [reflexivity|]. split; [exact RC|]. split; [exact R2|].
  destruct (lookup_set o0 _ o fs 1 O RC) as (g1 & L1); [cbn; auto|]. destruct (lookup_set o0 _ o fs 2 O RC) as (g2 & L2); [cbn; auto|].
  exists g1, g2. split; [exact L1|]. split; [exact L2|]. split; now apply below_zero.
Qed.
(** the hypotheses of the NaN in fresh memory: one NaN at the centre of a 3 x 3 square *)
Definition bad_memory : junk double := mkJunk (fun i => Some (if i =? 8 then NaN else zer)) (fun _ => Some zer) (fun _ => Some zer) (Some zer).
Lemma bad_memory_ok : exists fuel orc (o0 : obj double) o fs, total_junk bad_memory /\ valid_args 2 3 3 1 1 mp_f [0; 0] ps_f /\
  construct fuel orc bad_memory 2 [3; 3; 1] 1 mp_f [0; 0] ps_f = Ok o0 /\ inner_dof 2 3 3 1 8 /\ j_u bad_memory 8 = Some NaN /\ reaches o0 ([SetStrain 2 no_strain] ++ [hom_f]) o fs.
Proof.
  assert (J : total_junk bad_memory) by (constructor; unfold bad_memory; cbn; eauto).
  pose proof (construct_ok fuel40 (fun _ => counting) bad_memory 2 3 3 1 1 mp_f [0; 0] ps_f square_args J) as H.
  destruct (construct fuel40 (fun _ => counting) bad_memory 2 [3; 3; 1] 1 mp_f [0; 0] ps_f) as [o0|e] eqn:E.
  - assert (O : is_object o0). { exists 2, 3, 3, 1, 1, mp_f, [0; 0], ps_f, fuel40, (fun _ => counting), bad_memory. split; [exact square_args|]. split; [exact J|exact E]. }
    destruct (harmless_runs o0 no_files [SetStrain 2 no_strain; hom_f] O) as (o & fs & R).
    { repeat constructor; cbn; unfold fuel40; try reflexivity; lia. }
    exists fuel40, (fun _ => counting), o0, o, fs. split; [exact J|]. split; [exact square_args|]. split; [exact E|]. split; [|split; [reflexivity|exact R]].
    exists 1, 1, 0, 0. cbn. lia.
  - destruct H as (i & H). elim (counting_good _ _ fuel40_ok H).
Qed.
