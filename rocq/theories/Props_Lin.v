(** C38 (3D), C95: objects without plastic cells.  A state3 (state2) with residual 0 for the unit
    strain v (AsmSpec.v) is an exact equilibrium of the discrete body; its average stress s is row v of
    the exact effective stiffness, and l the distance of its displacements from the linear ones. *)
From Coq Require Import Reals.
From Verif Require Import Base Scalar EllModel AssemblyModel AsmPure FemGen FemPd FemRhs AsmSpec AsmEquil MicroModel OutputModel NewtonBase ApiBase ApiRun ApiHist Build ApiSpec
  ApiProps ApiCases Tangent MonoBody Linear SolveProps LinProps.
Open Scope Z_scope.
Open Scope R_scope.

Example C95_example : exists (j : junk R) o0 o fs, valid_args 3 4 5 3 0 mp5 [0; 2]%Z ps20 /\ body_args 3 mp5 ps20 /\ no_plastic [0; 2]%Z /\ total_junk j /\
  construct fuel40 (fun _ => counting) j 3 [4; 5; 3]%Z 0 mp5 [0; 2]%Z ps20 = Ok o0 /\ (4 * 5 * 3 * 3 < 2000)%Z /\ (2 <= fuel40)%nat /\
  (forall i : Z, exists k, (fun _ => counting) i 1%Z = Ok k /\ (k < 40)%Z) /\ (forall k i : Z, exists c, (fun _ _ => counting) k i 1%Z = Ok c /\ (c < 40)%Z) /\
  reaches o0 story o fs /\ last_set 7 (eps6 2) story /\ (exists i, lget (eps6 2) i <> 0) /\
  forall e, exists u vo b s a, state3 (o_env o0) e u vo b 0 s /\ affine_all3 (o_env o0) e a.
Proof. exact linear_story3. Qed.
Example C95_example_2d : exists (j : junk R) o0 o fs, valid_args 2 4 5 1 1 mp5 [1; 0]%Z ps20 /\ body_args 2 mp5 ps20 /\ total_junk j /\
  construct fuel40 (fun _ => counting) j 2 [4; 5; 1]%Z 1 mp5 [1; 0]%Z ps20 = Ok o0 /\ (4 * 5 * 2 < 2000)%Z /\ (2 <= fuel40)%nat /\
  (forall i : Z, exists k, (fun _ => counting) i 1%Z = Ok k /\ (k < 40)%Z) /\ (forall k i : Z, exists c, (fun _ _ => counting) k i 1%Z = Ok c /\ (c < 40)%Z) /\
  reaches o0 story o fs /\ last_set 7 (eps6 2) story /\ (exists i, lget (eps6 2) i <> 0) /\
  forall e, exists u b s a, state2 (o_env o0) e u b 0 s /\ affine_all2 (o_env o0) e a.
Proof. exact linear_story2. Qed.

(** C38.  In 3D without plastic phases the flag is 0 for every id and no point gets internal
    variables, whatever calls are made. *)
Theorem C38_always_linear_3d : forall fuel0 q0 (j : junk R) nx ny nz mtype mp mt ps o0, valid_args 3 nx ny nz mtype mp mt ps -> no_plastic mt -> total_junk j ->
  construct fuel0 q0 j 3 [nx; ny; nz] mtype mp mt ps = Ok o0 -> forall cs o fs, reaches o0 cs o fs ->
  (forall id, step (NlFlag id) (o, fs) = Ok (o, fs, RInt 0)) /\ forall g, In g (o_gps o) -> g_n g = None.
Proof. exact always_linear_3D. Qed.
Print Assumptions C38_always_linear_3d.

(** C95.  Without plastic phases, after any calls, homogenize returns, and every point with a strain e
    answers with a stress whose component v is near row v of the exact stiffness times e, a tangent
    whose row v is near that row, and the flag 0. *)
Theorem C95_linear_answers : forall fuel0 q0 (j : junk R) nx ny nz mtype mp mt ps o0, total_junk j -> (2 <= fuel0)%nat -> (forall i, exists k, q0 i 1%Z = Ok k /\ (k < 40)%Z) ->
  valid_args 3 nx ny nz mtype mp mt ps -> body_args 3 mp ps -> no_plastic mt -> construct fuel0 q0 j 3 [nx; ny; nz] mtype mp mt ps = Ok o0 -> (nx * ny * nz * 3 < 2000)%Z ->
  forall cs o fs fuel q id e, reaches o0 cs o fs -> last_set id e cs -> (2 <= fuel)%nat -> (forall k i, exists c, q k i 1%Z = Ok c /\ (c < 40)%Z) ->
  exists o', step (Homogenize fuel q) (o, fs) = Ok (o', fs, RUnit) /\
  exists ss cc, step (GetStress id) (o', fs) = Ok (o', fs, RBuf (Some ss)) /\ step (GetCtan id) (o', fs) = Ok (o', fs, RBuf (Some cc)) /\ step (NlFlag id) (o', fs) = Ok (o', fs, RInt 0) /\
  forall v u vo b s a, (0 <= v < 6)%Z -> state3 (o_env o0) (unit 6 v) u vo b 0 s -> affine_all3 (o_env o0) (unit 6 v) a ->
    let l := len (ndofs (o_env o0)) (fun r => val u r - a r) in
    lget mp 0 * lget mp 1 * Rabs (lget ss v - dot 6 (lget s) (lget e)) <= (1 / 100000 + 1000 * rsum (zrange 0 6) (fun i => Rabs (lget e i))) * l /\
    forall i, (0 <= i < 6)%Z -> lget mp 0 * lget mp 1 * Rabs (lget cc (v * 6 + i) - lget s i) <= 2000 * l.
Proof. exact linear_answers3. Qed.
Print Assumptions C95_linear_answers.
Theorem C95_linear_answers_2d : forall fuel0 q0 (j : junk R) nx ny nz mtype mp mt ps o0, total_junk j -> (2 <= fuel0)%nat -> (forall i, exists k, q0 i 1%Z = Ok k /\ (k < 40)%Z) ->
  valid_args 2 nx ny nz mtype mp mt ps -> body_args 2 mp ps -> construct fuel0 q0 j 2 [nx; ny; nz] mtype mp mt ps = Ok o0 -> (nx * ny * 2 < 2000)%Z ->
  forall cs o fs fuel q id e, reaches o0 cs o fs -> last_set id e cs -> (2 <= fuel)%nat -> (forall k i, exists c, q k i 1%Z = Ok c /\ (c < 40)%Z) ->
  exists o', step (Homogenize fuel q) (o, fs) = Ok (o', fs, RUnit) /\
  exists ss cc, step (GetStress id) (o', fs) = Ok (o', fs, RBuf (Some ss)) /\ step (GetCtan id) (o', fs) = Ok (o', fs, RBuf (Some cc)) /\ step (NlFlag id) (o', fs) = Ok (o', fs, RInt 0) /\
  forall v u b s a, (0 <= v < 3)%Z -> state2 (o_env o0) (unit 3 v) u b 0 s -> affine_all2 (o_env o0) (unit 3 v) a ->
    let l := len (ndofs (o_env o0)) (fun r => val u r - a r) in
    lget mp 0 * lget mp 1 * Rabs (lget ss v - dot 3 (lget s) (lget e)) <= (1 / 100000 + 1000 * rsum (zrange 0 3) (fun i => Rabs (lget e i))) * l /\
    forall i, (0 <= i < 3)%Z -> lget mp 0 * lget mp 1 * Rabs (lget cc (v * 3 + i) - lget s i) <= 2000 * l.
Proof. exact linear_answers2. Qed.
Print Assumptions C95_linear_answers_2d.
