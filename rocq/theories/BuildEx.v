(** Cases of the construction and output properties. *)
From Coq Require Import Reals Lra ZifyBool String.
From Verif Require Import Base Scalar EllSpec EllModel AssemblyModel AsmPure AsmSpec AsmCases PlastRef MicroModel OutputModel NewtonBase ApiBase ApiRun ApiHist Build ApiExact ApiSpec ApiProps ApiCases ApiCommit OneCell ApiEx
  Tangent Invalid Classify VtuProps VtuData OutProps LogProps Linear Untouched TwoCell SolveProps.
Open Scope list_scope.
Open Scope Z_scope.
Open Scope R_scope.

(** ** Cells inside and outside a disc and a ball *)
Lemma disc_args : valid_args 2 4 4 1 0 mp5 [0; 1]%Z ps20.
Proof. constructor; try lia; [cbn; lia|exists 0%Z, 1%Z, []; unfold mat_type_ok; auto|cbn; lia]. Qed.
Lemma disc_ex : exists o, construct fuel40 (fun _ => counting) (flat_junk 1) 2 [4; 4; 1]%Z 0 mp5 [0; 1]%Z ps20 = Ok o /\
  aget (v_etype (o_env o)) (1 * (4 - 1) + 1) = Some 1%Z /\ aget (v_etype (o_env o)) (0 * (4 - 1) + 0) = Some 0%Z.
Proof.
  destruct (counted 2 4 4 1 0 mp5 [0; 1]%Z ps20 1 disc_args) as (o & E). exists o. split; [exact E|].
  assert (L0 : lget mp5 0 = 1) by reflexivity. assert (L1 : lget mp5 1 = 1) by reflexivity. assert (L3 : lget mp5 3 = / 5) by reflexivity.
  pose proof (cells2 _ _ _ _ _ _ _ _ _ _ _ 1 1 E ltac:(lia) ltac:(lia)) as H1. pose proof (cells2 _ _ _ _ _ _ _ _ _ _ _ 0 0 E ltac:(lia) ltac:(lia)) as H0.
  cbn [Z.eqb] in H0, H1. rewrite L0, L1, L3 in H0, H1. unfold in_disc, mid in H0, H1. change (IZR (4 - 1)) with 3 in H0, H1. split.
  - apply (proj1 H1). lra.
  - apply (proj2 H0). lra.
Qed.
Lemma ball_ex : exists o, construct fuel40 (fun _ => counting) (flat_junk 1) 3 [4; 4; 4]%Z 0 mp5 [0; 1]%Z ps20 = Ok o /\
  aget (v_etype (o_env o)) (1 * (4 - 1) * (4 - 1) + 1 * (4 - 1) + 1) = Some 1%Z /\ aget (v_etype (o_env o)) (0 * (4 - 1) * (4 - 1) + 1 * (4 - 1) + 1) = Some 0%Z.
Proof.
  destruct (counted 3 4 4 4 0 mp5 [0; 1]%Z ps20 1 (real_args3 4 4 4 0 1 ltac:(lia) ltac:(lia) ltac:(lia) ltac:(apply types_ok) ltac:(apply types_ok))) as (o & E). exists o. split; [exact E|].
  assert (L0 : lget mp5 0 = 1) by reflexivity. assert (L1 : lget mp5 1 = 1) by reflexivity. assert (L2 : lget mp5 2 = 1) by reflexivity. assert (L3 : lget mp5 3 = / 5) by reflexivity.
  pose proof (cells3 _ _ _ _ _ _ _ _ _ _ _ 1 1 1 E ltac:(lia) ltac:(lia) ltac:(lia)) as H1. pose proof (cells3 _ _ _ _ _ _ _ _ _ _ _ 1 1 0 E ltac:(lia) ltac:(lia) ltac:(lia)) as H0.
  cbn [Z.eqb] in H0, H1. rewrite L0, L1, L2, L3 in H0, H1. unfold in_ball, mid in H0, H1. change (IZR (4 - 1)) with 3 in H0, H1. split.
  - apply (proj1 H1). lra.
  - apply (proj2 H0). lra.
Qed.

(** ** The wrapper *)
Lemma wrapper_runs {T} `{Ops T} (a : list (wcall T)) fuel orc j dim size mtype mp mt ps cs s s1 r1 o0 o fs rs : wrun a s = Ok (s1, r1) ->
  construct fuel orc j dim size mtype mp mt ps = Ok o0 -> run cs (o0, construct_files o0 (snd s1)) = Ok (o, fs, rs) ->
  wrun (a ++ WConstruct fuel orc j dim size mtype mp mt ps :: map WCall cs) s = Ok (Some o, fs, r1 ++ RUnit :: rs).
Proof. intros A E Q. rewrite (wrapper_object _ _ _ _ _ _ _ _ _ _ _ _ _ _ A), E. cbn [bind fst snd]. rewrite Q. reflexivity. Qed.
Lemma wrapper_twice {T} `{Ops T} fuel orc j dim size mtype mp mt ps o0 fs : construct fuel orc j dim size mtype mp mt ps = Ok o0 ->
  exists p fs1 r1, wrun [WConstruct fuel orc j dim size mtype mp mt ps; WConstruct fuel orc j dim size mtype mp mt ps] (None, fs) = Ok ((p, fs1), r1).
Proof. intros E. cbn [wrun wstep]. rewrite E. cbn [bind fst snd]. eauto. Qed.
Lemma wrapped : exists (ws : list (wcall R)) o fs rs, wrun ws (None, no_files) = Ok ((Some o, fs), rs) /\ length ws = 9%nat /\
  exists a cs, ws = a ++ WConstruct fuel40 (fun _ => counting) (flat_junk 1) 3 [4; 5; 3]%Z 0 mp5 [1; 2]%Z ps20 :: map WCall cs /\ length a = 2%nat /\ cs = story.
Proof.
  destruct (counted 3 4 5 3 0 mp5 [1; 2]%Z ps20 1 (real_args3 4 5 3 1 2 ltac:(lia) ltac:(lia) ltac:(lia) ltac:(apply types_ok) ltac:(apply types_ok))) as (o0 & E).
  assert (O : is_object o0).
  { exists 3%Z, 4%Z, 5%Z, 3%Z, 0%Z, mp5, [1; 2]%Z, ps20, fuel40, (fun _ => counting), (flat_junk 1).
    split; [exact (real_args3 4 5 3 1 2 ltac:(lia) ltac:(lia) ltac:(lia) ltac:(apply types_ok) ltac:(apply types_ok))|]. split; [apply flat_total|exact E]. }
  set (w := WConstruct fuel40 (fun _ => counting) (flat_junk 1) 3 [4; 5; 3]%Z 0 mp5 [1; 2]%Z ps20).
  destruct (wrapper_twice _ _ _ _ _ _ _ _ _ _ no_files E) as (p & fs1 & r1 & A). fold w in A.
  destruct (harmless_ok o0 (construct_files o0 fs1) story O (story_harmless _)) as (o & fs & rs & Er).
  exists ([w; w] ++ w :: map WCall story), o, fs, (r1 ++ RUnit :: rs). split; [|split; [reflexivity|exists [w; w], story; repeat split]].
  exact (wrapper_runs _ _ _ _ _ _ _ _ _ _ _ _ _ _ _ _ _ _ A E Er).
Qed.

(** ** Output *)
Lemma shown : exists j o0 o fs g o' fs' r, total_junk j /\ valid_args 3 4 5 3 0 mp5 [1; 2]%Z ps20 /\ body_args 3 mp5 ps20 /\
  construct fuel40 (fun _ => counting) j 3 [4; 5; 3]%Z 0 mp5 [1; 2]%Z ps20 = Ok o0 /\ reaches o0 story o fs /\ lookup 7 (o_gps o) = Some g /\
  step (Output fuel40 counting 9 7) (o, fs) = Ok (o', fs', r).
Proof.
  set (A := real_args3 4 5 3 1 2 ltac:(lia) ltac:(lia) ltac:(lia) ltac:(apply types_ok) ltac:(apply types_ok)).
  destruct (counted 3 4 5 3 0 mp5 [1; 2]%Z ps20 1 A) as (o0 & E).
  assert (O : is_object o0) by (exists 3%Z, 4%Z, 5%Z, 3%Z, 0%Z, mp5, [1; 2]%Z, ps20, fuel40, (fun _ => counting), (flat_junk 1); split; [exact A|]; split; [apply flat_total|exact E]).
  destruct (harmless_runs o0 no_files (story ++ [Output fuel40 counting 9 7]) O) as (o' & fs' & R').
  { apply Forall_app. split; [apply story_harmless|]. constructor; [split; [exact fuel40_ok|reflexivity]|constructor]. }
  apply reach_last in R'. destruct R' as (o & fs & r & R & S). destruct (lookup_set o0 story o fs 7%Z O R) as (g & L); [rewrite (proj1 story_facts); now left|].
  exists (flat_junk 1), o0, o, fs, g, o', fs', r. split; [apply flat_total|]. split; [exact A|]. split; [apply body5|]. auto.
Qed.
Lemma shown2 : exists j o0 o fs g o' fs' r, total_junk j /\ valid_args 2 4 5 1 1 mp5 [1; 0]%Z ps20 /\ body_args 2 mp5 ps20 /\
  construct fuel40 (fun _ => counting) j 2 [4; 5; 1]%Z 1 mp5 [1; 0]%Z ps20 = Ok o0 /\ reaches o0 story o fs /\ lookup 7 (o_gps o) = Some g /\
  step (Output fuel40 counting 9 7) (o, fs) = Ok (o', fs', r).
Proof.
  set (A := real_args2 4 5 1 0 ltac:(lia) ltac:(lia) ltac:(apply types_ok) ltac:(apply types_ok)).
  destruct (counted 2 4 5 1 1 mp5 [1; 0]%Z ps20 1 A) as (o0 & E).
  assert (O : is_object o0) by (exists 2%Z, 4%Z, 5%Z, 1%Z, 1%Z, mp5, [1; 0]%Z, ps20, fuel40, (fun _ => counting), (flat_junk 1); split; [exact A|]; split; [apply flat_total|exact E]).
  destruct (harmless_runs o0 no_files (story ++ [Output fuel40 counting 9 7]) O) as (o' & fs' & R').
  { apply Forall_app. split; [apply story_harmless|]. constructor; [split; [exact fuel40_ok|reflexivity]|constructor]. }
  apply reach_last in R'. destruct R' as (o & fs & r & R & S). destruct (lookup_set o0 story o fs 7%Z O R) as (g & L); [rewrite (proj1 story_facts); now left|].
  exists (flat_junk 1), o0, o, fs, g, o', fs', r. split; [apply flat_total|]. split; [exact A|]. split; [apply body5|]. auto.
Qed.

(** ** The log files: two records of a 3D object *)
Definition logged : list (call R) := [SetStrain 7 (eps6 1); SetStrain 3 (eps6 0); hom; WriteInfo; SetStrain 5 (eps6 3); hom; WriteInfo].
Lemma logged_ex : exists o0 o fs rs, is_object o0 /\ v_dim (o_env o0) = 3%Z /\ run logged (o0, construct_files o0 no_files) = Ok (o, fs, rs) /\ length (infos [] logged) = 2%nat.
Proof.
  destruct (object_exists 3 4 5 3 0 mp5 [1; 2]%Z ps20 1 (real_args3 4 5 3 1 2 ltac:(lia) ltac:(lia) ltac:(lia) ltac:(apply types_ok) ltac:(apply types_ok))) as (o0 & O & E).
  pose proof (eo_dim _ _ _ _ _ _ _ _ _ _ E) as D. exists o0.
  destruct (run logged (o0, construct_files o0 no_files)) as [((o & fs) & rs)|e] eqn:Er; [exists o, fs, rs; auto|].
  exfalso. destruct (safe o0 _ logged e O Er) as (a & c & b & Es & X). unfold logged in Es.
  assert (NV : nvoi (o_env o0) = 6%Z) by (unfold nvoi; now rewrite D).
  assert (Hh : forall jj i, ~ nbad fuel40 (cnt2 jj i) e) by (intros jj i; exact (counting_good _ _ fuel40_ok)).
  destruct a as [|c0 a]; [injection Es as <- _; destruct X as (_ & X); rewrite NV in X; cbn in X; lia|]. injection Es as <- Es.
  destruct a as [|c0 a]; [injection Es as <- _; destruct X as (_ & X); rewrite NV in X; cbn in X; lia|]. injection Es as <- Es.
  destruct a as [|c0 a]; [injection Es as <- _; destruct X as (jj & i & X); exact (Hh jj i X)|]. injection Es as <- Es.
  destruct a as [|c0 a]; [injection Es as <- _|injection Es as <- Es].
  { destruct X as (_ & id & Hi & [X|X]); [rewrite D in X; discriminate|]. apply X. cbn in Hi. destruct Hi as [<-|[<-|[]]].
    - exists [], (eps6 1), [SetStrain 3 (eps6 0); hom], fuel40, cnt2. split; [reflexivity|right; now left].
    - exists [SetStrain 7 (eps6 1)], (eps6 0), [hom], fuel40, cnt2. split; [reflexivity|now left]. }
  destruct a as [|c0 a]; [injection Es as <- _; destruct X as (_ & X); rewrite NV in X; cbn in X; lia|]. injection Es as <- Es.
  destruct a as [|c0 a]; [injection Es as <- _; destruct X as (jj & i & X); exact (Hh jj i X)|]. injection Es as <- Es.
  destruct a as [|c0 a]; [injection Es as <- _|injection Es as <- Es].
  { destruct X as (_ & id & Hi & [X|X]); [rewrite D in X; discriminate|]. apply X. cbn in Hi. destruct Hi as [<-|[<-|[<-|[]]]].
    - exists [], (eps6 1), [SetStrain 3 (eps6 0); hom; WriteInfo; SetStrain 5 (eps6 3); hom], fuel40, cnt2. split; [reflexivity|right; now left].
    - exists [SetStrain 7 (eps6 1)], (eps6 0), [hom; WriteInfo; SetStrain 5 (eps6 3); hom], fuel40, cnt2. split; [reflexivity|now left].
    - exists [SetStrain 7 (eps6 1); SetStrain 3 (eps6 0); hom; WriteInfo], (eps6 3), [hom], fuel40, cnt2. split; [reflexivity|now left]. }
  destruct a; discriminate.
Qed.
Lemma logged_ids : first_use (set_ids story) = [7; 3]%Z /\ map (fun a => first_use (set_ids a)) (infos [] logged) = [[7; 3]; [7; 3; 5]]%Z.
Proof. split; reflexivity. Qed.

(** ** Superposition: three strains of one object on the linear path *)
Definition pull (x : R) : list (call R) := [SetStrain 1 (shear x)].
Lemma pull_set x : last_set 1 (shear x) (pull x).
Proof. exists [], []. split; [reflexivity|]. intros e []. Qed.
Lemma pulled : exists o0 : obj R, is_object o0 /\ nvoi (o_env o0) = 6%Z /\ forall x, Rabs x <= 2 -> exists o fs g o' fs' r,
  reaches o0 (pull x) o fs /\ lookup 1 (o_gps o) = Some g /\ g_n g = None /\ below o g /\ step hom (o, fs) = Ok (o', fs', r).
Proof.
  destruct (flat_object 0 1 1) as (o0 & O & C & H). destruct (load_point o0 O) as (o1 & fs1 & g1 & R1 & L1 & N1 & E1 & Ec1 & St1).
  assert (B1 : below o1 g1).
  { pose proof C as C1. rewrite <- E1 in C1. rewrite (cell_nvoi _ _ _ _ C) in St1. apply (shear_below 0 1 1); try assumption; [|lra].
    intros v Hv. rewrite Ec1, H, bump3 by lia. reflexivity. }
  exists o0. split; [exact O|]. split; [exact (cell_nvoi _ _ _ _ C)|]. intros x Hx.
  destruct (harmless_runs o0 no_files (pull x) O) as (o & fs & R); [unfold pull; repeat constructor; cbn; lia|].
  destruct (lookup_set o0 (pull x) o fs 1%Z O R ltac:(left; reflexivity)) as (g & L).
  assert (N : g_n g = None).
  { destruct (reach_inv o0 (pull x) o fs O R) as (_ & _ & _ & Hr). destruct (Hr 1%Z g L) as (_ & [(Hh & _)|(_ & F)]).
    - destruct Hh as (a & e & b & f & q & E & I). unfold pull in E. destruct a as [|c [|c' a]]; cbn in E; [|discriminate|discriminate]. injection E as _ <-. destruct I.
    - destruct F as (_ & _ & _ & _ & F & _). exact F. }
  assert (B : below o g).
  { apply (superpose_below o0 o1 o1 o load load (pull x) fs1 fs1 fs 1 1 1 g1 g1 g (shear 2) (shear 2) (shear x) (x / 2) 0 O R1 R1 R ls_load ls_load (pull_set x) L1 L1 L); try assumption.
    - rewrite (cell_nvoi _ _ _ _ C). intros i Hi. rewrite !shear_get by lia. destruct (i =? 3)%Z; [field|ring].
    - rewrite Rabs_R0. unfold Rdiv. rewrite Rabs_mult, (Rabs_right (/ 2)) by lra. lra. }
  destruct (keyed_store o0 (pull x) o fs O R) as (M & _). change (map g_id (o_gps o) = [1%Z]) in M.
  destruct (all_linear o0 (pull x) o fs fuel40 cnt2 O R) as (o' & r & S & _).
  { destruct (o_gps o) as [|g0 [|g2 l]] eqn:Eg; try discriminate. intros g' [<-|[]]. cbn in M. injection M as M.
    cbn in L. rewrite M, Z.eqb_refl in L. injection L as ->. auto. }
  exists o, fs, g, o', fs, r. auto.
Qed.
Lemma pull_comb a b x y : combined 6 a b (shear x) (shear y) (shear (a * x + b * y)).
Proof. intros i Hi. rewrite !shear_get by lia. destruct (i =? 3)%Z; ring. Qed.

(** ** A commit with a linear cell *)
Lemma two_ex (x : R) : exists o, valid_args 3 2 3 2 1 tmp [0; 1]%Z (cps 1 0) /\ total_junk (new_junk x) /\
  construct fuel40 (fun _ => counting) (new_junk x) 3 [2; 3; 2]%Z 1 tmp [0; 1]%Z (cps 1 0) = Ok o /\ ncells (o_env o) = 2%Z /\ plastic_at (o_env o) 1 = false /\ plastic_at (o_env o) 0 = true.
Proof. destruct (two_object x) as (o & E & _ & C). exists o. split; [exact targs|]. split; [apply new_total|]. split; [exact E|]. split; [apply C|]. split; apply C. Qed.
