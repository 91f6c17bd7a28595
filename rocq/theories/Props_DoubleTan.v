(** C106-C107: the tangents of a whole run in IEEE doubles against the effective stiffness of the exact
    body.  Notations as for C103-C105: [flt] is Flocq's type of doubles, [val] the real number one stands
    for, [fin x] says that x is neither infinite nor NaN, [p2 e] is 2^e; [uro] is 2^-53, [eta] is 2^-1075,
    [tiny] is 2^-1022, [gam n] is (1 + uro)^n - 1.  [exact_env V] is V with the reals its doubles stand for.
    [sgap3] and [sgap2] are the right-hand sides of C105_answers_3D and C105_answers_2D, ly times the
    distance from K times the strain of an accepted stress whose reported error is er, for strains up to em. *)
From Coq Require Import Reals.
From Flocq Require Import BinarySingleNaN.
From Verif Require Import Base Scalar AssemblyModel AsmPure AsmBnd AsmRun AsmSpec AsmProps FemGen FemEquil MicroModel OutputModel NewtonBase ApiBase ApiRun ApiHist Build ApiSpec ApiProps ApiCases
  Tangent KornProps BinInst FloatSum FloatFem FloatMat FloatNewton FloatObj FloatCase FloatFlat FloatTan FloatTanEx.
Open Scope Z_scope.
Open Scope R_scope.
Notation val := (@B2R 53 1024).

Example C106_example_3D : exists o0 o fs o' fs' r g g' er,
  valid_args 3 2 3 4 1 half [0; 2]%Z pair20 /\ total_junk (flat_junk (ofZ 0 : flt)) /\ construct fuel40 (fun _ => counting) (flat_junk (ofZ 0)) 3 [2; 3; 4]%Z 1 half [0; 2]%Z pair20 = Ok o0 /\
  fair_args 3 2 3 4 half pair20 3 1 4 /\ no_plastic [0; 2]%Z /\ moduli3 (map val pair20) (1 / 2) 4 /\ gam (S (Z.to_nat (2 * 3 * 4 * 3))) <= / 2 /\
  46080 * (val (lget half 0) * val (lget half 0)) * (3 * 3) * (4 / (1 / 2)) * (sqrt (INR (Z.to_nat (2 * 3 * 4 * 3))) * gam 165) + gam 12 <= / 2 /\
  reaches o0 [SetStrain 7 eps_h] o fs /\ last_set 7 eps_h [SetStrain 7 eps_h] /\ p2 (-40) <= 2 <= p2 99 /\ (forall v, (0 <= v < 6)%Z -> fin (lget eps_h v) /\ Rabs (val (lget eps_h v)) <= 2) /\
  step one_hom (o, fs) = Ok (o', fs', r) /\ lookup 7 (o_gps o) = Some g /\ ~ below o g /\ lookup 7 (o_gps o') = Some g' /\ aget (g_err g') 0 = Some er /\ oltb er nr_tol = true /\
  forall i, (0 <= i < 6)%Z -> exists er', aget (g_err g') (1 + i) = Some er' /\ oltb er' nr_tol = true.
Proof. exact flat_tangents3. Qed.
Example C106_example_2D : exists o0 o fs o' fs' r g g' er,
  valid_args 2 2 4 1 1 half [0; 2]%Z pair20 /\ total_junk (flat_junk (ofZ 0 : flt)) /\ construct fuel40 (fun _ => counting) (flat_junk (ofZ 0)) 2 [2; 4; 1]%Z 1 half [0; 2]%Z pair20 = Ok o0 /\
  fair_args 2 2 4 1 half pair20 3 1 4 /\ moduli2 (map val pair20) (1 / 2) 4 /\ gam (S (Z.to_nat (2 * 4 * 2))) <= / 2 /\
  4608 * (val (lget half 0) * val (lget half 0)) * (3 * 3) * (4 / (1 / 2)) * (sqrt (INR (Z.to_nat (2 * 4 * 2))) * gam 165) + gam 12 <= / 2 /\
  reaches o0 [SetStrain 7 eps_h] o fs /\ last_set 7 eps_h [SetStrain 7 eps_h] /\ p2 (-40) <= 2 <= p2 99 /\ (forall v, (0 <= v < 3)%Z -> fin (lget eps_h v) /\ Rabs (val (lget eps_h v)) <= 2) /\
  step one_hom (o, fs) = Ok (o', fs', r) /\ lookup 7 (o_gps o) = Some g /\ ~ below o g /\ lookup 7 (o_gps o') = Some g' /\ aget (g_err g') 0 = Some er /\ oltb er nr_tol = true /\
  forall i, (0 <= i < 3)%Z -> exists er', aget (g_err g') (1 + i) = Some er' /\ oltb er' nr_tol = true.
Proof. exact flat_tangents2. Qed.
(** C106.  The tangent of a point that homogenize solves, in doubles: with K the effective stiffness of
    the exact body, every entry whose two stresses were accepted (reported errors below nr_tol, stored
    in the point) is finite and is the entry of K, up to the gaps of the two stresses divided by the
    step 1e-8, the rounding of the strain that was moved, and two roundings. *)
Theorem C106_tangents_3D : forall fuel0 q0 (j : junk flt) nx ny nz mtype (mp : list flt) mt (ps : list flt) o0 H L m M,
  let lx := val (lget mp 0) in let ly := val (lget mp 1) in let lz := val (lget mp 2) in let N := Z.to_nat (nx * ny * nz * 3) in
  valid_args 3 nx ny nz mtype mp mt ps -> total_junk j -> construct fuel0 q0 j 3 [nx; ny; nz] mtype mp mt ps = Ok o0 ->
  fair_args 3 nx ny nz mp ps H L M -> no_plastic mt -> 0 < m -> moduli3 (map val ps) m M ->
  gam (S N) <= / 2 -> 46080 * (lx * lx) * (H * H) * (M / m) * (sqrt (INR N) * gam 165) + gam 12 <= / 2 ->
  let sgap := sgap3 nx ny nz lx ly lz H L m M in
  exists K : Z -> Z -> R, (forall v i, (0 <= v < 6)%Z -> (0 <= i < 6)%Z -> K v i = K i v) /\
  (forall e, exists u vo b s, state3 (exact_env (o_env o0)) e u vo b 0 s) /\
  (forall e u vo b s, state3 (exact_env (o_env o0)) e u vo b 0 s -> forall v, (0 <= v < 6)%Z -> lget s v = dot 6 (K v) (lget e)) /\
  forall cs o fs fuel q id e o' fs' r em g, reaches o0 cs o fs -> last_set id e cs -> p2 (-40) <= em <= p2 99 -> (forall v, (0 <= v < 6)%Z -> fin (lget e v) /\ Rabs (val (lget e v)) <= em) ->
  step (Homogenize fuel q) (o, fs) = Ok (o', fs', r) -> lookup id (o_gps o) = Some g -> ~ below o g ->
  exists g', lookup id (o_gps o') = Some g' /\ forall v i, (0 <= v < 6)%Z -> (0 <= i < 6)%Z ->
  exists er er' c, aget (g_err g') 0 = Some er /\ aget (g_err g') (1 + i) = Some er' /\ aget (g_ctan g') (v * 6 + i) = Some c /\
  (oltb er nr_tol = true -> oltb er' nr_tol = true -> fin c /\ let d := val d_eps in let k := Rabs (K v i) in
    ly * Rabs (val c - K v i) <= (1 + gam 2) / d * (sgap em er + sgap ((1 + uro) * (em + d)) er' + ly * (k * (uro * (em + d)))) + ly * (gam 2 * k + eta)).
Proof. exact tangents_double3. Qed.
Print Assumptions C106_tangents_3D.
Theorem C106_tangents_2D : forall fuel0 q0 (j : junk flt) nx ny nz mtype (mp : list flt) mt (ps : list flt) o0 H L m M,
  let lx := val (lget mp 0) in let ly := val (lget mp 1) in let N := Z.to_nat (nx * ny * 2) in
  valid_args 2 nx ny nz mtype mp mt ps -> total_junk j -> construct fuel0 q0 j 2 [nx; ny; nz] mtype mp mt ps = Ok o0 ->
  fair_args 2 nx ny nz mp ps H L M -> 0 < m -> moduli2 (map val ps) m M ->
  gam (S N) <= / 2 -> 4608 * (lx * lx) * (H * H) * (M / m) * (sqrt (INR N) * gam 165) + gam 12 <= / 2 ->
  let sgap := sgap2 nx ny lx ly H L m M in
  exists K : Z -> Z -> R, (forall v i, (0 <= v < 3)%Z -> (0 <= i < 3)%Z -> K v i = K i v) /\
  (forall e, exists u b s, state2 (exact_env (o_env o0)) e u b 0 s) /\
  (forall e u b s, state2 (exact_env (o_env o0)) e u b 0 s -> forall v, (0 <= v < 3)%Z -> lget s v = dot 3 (K v) (lget e)) /\
  forall cs o fs fuel q id e o' fs' r em g, reaches o0 cs o fs -> last_set id e cs -> p2 (-40) <= em <= p2 99 -> (forall v, (0 <= v < 3)%Z -> fin (lget e v) /\ Rabs (val (lget e v)) <= em) ->
  step (Homogenize fuel q) (o, fs) = Ok (o', fs', r) -> lookup id (o_gps o) = Some g -> ~ below o g ->
  exists g', lookup id (o_gps o') = Some g' /\ forall v i, (0 <= v < 3)%Z -> (0 <= i < 3)%Z ->
  exists er er' c, aget (g_err g') 0 = Some er /\ aget (g_err g') (1 + i) = Some er' /\ aget (g_ctan g') (v * 3 + i) = Some c /\
  (oltb er nr_tol = true -> oltb er' nr_tol = true -> fin c /\ let d := val d_eps in let k := Rabs (K v i) in
    ly * Rabs (val c - K v i) <= (1 + gam 2) / d * (sgap em er + sgap ((1 + uro) * (em + d)) er' + ly * (k * (uro * (em + d)))) + ly * (gam 2 * k + eta)).
Proof. exact tangents_double2. Qed.
Print Assumptions C106_tangents_2D.

Example C107_example_3D : exists o0 o fs o' fs' r g,
  valid_args 3 2 3 4 1 half [0; 2]%Z pair20 /\ total_junk (flat_junk huge) /\ construct fuel40 (fun _ => counting) (flat_junk huge) 3 [2; 3; 4]%Z 1 half [0; 2]%Z pair20 = Ok o0 /\
  fair_args 3 2 3 4 half pair20 3 1 4 /\ no_plastic [0; 2]%Z /\ moduli3 (map val pair20) (1 / 2) 4 /\ gam (S (Z.to_nat (2 * 3 * 4 * 3))) <= / 2 /\
  46080 * (val (lget half 0) * val (lget half 0)) * (3 * 3) * (4 / (1 / 2)) * (sqrt (INR (Z.to_nat (2 * 3 * 4 * 3))) * gam 165) + gam 12 <= / 2 /\
  (forall i w w' nl it er s, wok (o_env o0) w -> respond fuel40 counting (o_env o0) (bump 6 (AssemblyModel.zeros 6) i) w = Ok (w', nl, it, er, s) -> oltb er nr_tol = true) /\
  reaches o0 [SetStrain 7 eps_h] o fs /\ last_set 7 eps_h [SetStrain 7 eps_h] /\ 0 <= 2 <= p2 60 /\ (forall v, (0 <= v < 6)%Z -> fin (lget eps_h v) /\ Rabs (val (lget eps_h v)) <= 2) /\
  step one_hom (o, fs) = Ok (o', fs', r) /\ lookup 7 (o_gps o) = Some g /\ g_n g = None /\ below o g.
Proof. exact flat_linear3. Qed.
Example C107_example_2D : exists o0 o fs o' fs' r g,
  valid_args 2 2 4 1 1 half [0; 2]%Z pair20 /\ total_junk (flat_junk huge) /\ construct fuel40 (fun _ => counting) (flat_junk huge) 2 [2; 4; 1]%Z 1 half [0; 2]%Z pair20 = Ok o0 /\
  fair_args 2 2 4 1 half pair20 3 1 4 /\ moduli2 (map val pair20) (1 / 2) 4 /\ gam (S (Z.to_nat (2 * 4 * 2))) <= / 2 /\
  4608 * (val (lget half 0) * val (lget half 0)) * (3 * 3) * (4 / (1 / 2)) * (sqrt (INR (Z.to_nat (2 * 4 * 2))) * gam 165) + gam 12 <= / 2 /\
  (forall i w w' nl it er s, wok (o_env o0) w -> respond fuel40 counting (o_env o0) (bump 3 (AssemblyModel.zeros 3) i) w = Ok (w', nl, it, er, s) -> oltb er nr_tol = true) /\
  reaches o0 [SetStrain 7 eps_h] o fs /\ last_set 7 eps_h [SetStrain 7 eps_h] /\ 0 <= 2 <= p2 60 /\ (forall v, (0 <= v < 3)%Z -> fin (lget eps_h v) /\ Rabs (val (lget eps_h v)) <= 2) /\
  step one_hom (o, fs) = Ok (o', fs', r) /\ lookup 7 (o_gps o) = Some g /\ g_n g = None /\ below o g.
Proof. exact flat_linear2. Qed.
(** C107.  The linear tangent that the constructor computes, in doubles, and the stresses that are
    predicted with it: every column whose solve was accepted is finite and is that of K up to the gap
    of its stress divided by the step and one rounding; when all columns were accepted, a point that
    takes the shortcut returns finite stresses, K times its strain up to those gaps and seven roundings. *)
Theorem C107_linear_tangent_3D : forall fuel0 q0 (j : junk flt) nx ny nz mtype (mp : list flt) mt (ps : list flt) o0 H L m M,
  let lx := val (lget mp 0) in let ly := val (lget mp 1) in let lz := val (lget mp 2) in let N := Z.to_nat (nx * ny * nz * 3) in
  valid_args 3 nx ny nz mtype mp mt ps -> total_junk j -> construct fuel0 q0 j 3 [nx; ny; nz] mtype mp mt ps = Ok o0 ->
  fair_args 3 nx ny nz mp ps H L M -> no_plastic mt -> 0 < m -> moduli3 (map val ps) m M ->
  gam (S N) <= / 2 -> 46080 * (lx * lx) * (H * H) * (M / m) * (sqrt (INR N) * gam 165) + gam 12 <= / 2 ->
  let sgap := sgap3 nx ny nz lx ly lz H L m M in
  exists K : Z -> Z -> R, (forall v i, (0 <= v < 6)%Z -> (0 <= i < 6)%Z -> K v i = K i v) /\
  (forall e, exists u vo b s, state3 (exact_env (o_env o0)) e u vo b 0 s) /\
  (forall e u vo b s, state3 (exact_env (o_env o0)) e u vo b 0 s -> forall v, (0 <= v < 6)%Z -> lget s v = dot 6 (K v) (lget e)) /\
  exists ers : Z -> flt, let d := val d_eps in let gap v i := (1 + uro) / d * sgap ((1 + uro) * d) (ers i) + ly * (uro * Rabs (K v i) + eta) in
  (forall i, (0 <= i < 6)%Z -> exists w w' nl it s, wok (o_env o0) w /\ respond fuel0 (q0 i) (o_env o0) (bump 6 (AssemblyModel.zeros 6) i) w = Ok (w', nl, it, ers i, s)) /\
  (forall v i, (0 <= v < 6)%Z -> (0 <= i < 6)%Z -> oltb (ers i) nr_tol = true -> exists c, aget (o_ctan o0) (v * 6 + i) = Some c /\ fin c /\ ly * Rabs (val c - K v i) <= gap v i) /\
  ((forall i, (0 <= i < 6)%Z -> oltb (ers i) nr_tol = true) ->
   forall cs o fs fuel q id e o' fs' r em g, reaches o0 cs o fs -> last_set id e cs -> 0 <= em <= p2 60 -> (forall v, (0 <= v < 6)%Z -> fin (lget e v) /\ Rabs (val (lget e v)) <= em) ->
   step (Homogenize fuel q) (o, fs) = Ok (o', fs', r) -> lookup id (o_gps o) = Some g -> g_n g = None -> below o g ->
   exists ss, step (GetStress id) (o', fs') = Ok (o', fs', RBuf (Some ss)) /\ length ss = 6%nat /\ forall v, (0 <= v < 6)%Z -> fin (lget ss v) /\
     ly * Rabs (val (lget ss v) - dot 6 (K v) (fun i => val (lget e i))) <=
       (1 + gam 7) * (em * rsum (zrange 0 6) (gap v)) + gam 7 * (ly * (em * rsum (zrange 0 6) (fun i => Rabs (K v i)) + 6 * tiny))).
Proof. exact linear_double3. Qed.
Print Assumptions C107_linear_tangent_3D.
Theorem C107_linear_tangent_2D : forall fuel0 q0 (j : junk flt) nx ny nz mtype (mp : list flt) mt (ps : list flt) o0 H L m M,
  let lx := val (lget mp 0) in let ly := val (lget mp 1) in let N := Z.to_nat (nx * ny * 2) in
  valid_args 2 nx ny nz mtype mp mt ps -> total_junk j -> construct fuel0 q0 j 2 [nx; ny; nz] mtype mp mt ps = Ok o0 ->
  fair_args 2 nx ny nz mp ps H L M -> 0 < m -> moduli2 (map val ps) m M ->
  gam (S N) <= / 2 -> 4608 * (lx * lx) * (H * H) * (M / m) * (sqrt (INR N) * gam 165) + gam 12 <= / 2 ->
  let sgap := sgap2 nx ny lx ly H L m M in
  exists K : Z -> Z -> R, (forall v i, (0 <= v < 3)%Z -> (0 <= i < 3)%Z -> K v i = K i v) /\
  (forall e, exists u b s, state2 (exact_env (o_env o0)) e u b 0 s) /\
  (forall e u b s, state2 (exact_env (o_env o0)) e u b 0 s -> forall v, (0 <= v < 3)%Z -> lget s v = dot 3 (K v) (lget e)) /\
  exists ers : Z -> flt, let d := val d_eps in let gap v i := (1 + uro) / d * sgap ((1 + uro) * d) (ers i) + ly * (uro * Rabs (K v i) + eta) in
  (forall i, (0 <= i < 3)%Z -> exists w w' nl it s, wok (o_env o0) w /\ respond fuel0 (q0 i) (o_env o0) (bump 3 (AssemblyModel.zeros 3) i) w = Ok (w', nl, it, ers i, s)) /\
  (forall v i, (0 <= v < 3)%Z -> (0 <= i < 3)%Z -> oltb (ers i) nr_tol = true -> exists c, aget (o_ctan o0) (v * 3 + i) = Some c /\ fin c /\ ly * Rabs (val c - K v i) <= gap v i) /\
  ((forall i, (0 <= i < 3)%Z -> oltb (ers i) nr_tol = true) ->
   forall cs o fs fuel q id e o' fs' r em g, reaches o0 cs o fs -> last_set id e cs -> 0 <= em <= p2 60 -> (forall v, (0 <= v < 3)%Z -> fin (lget e v) /\ Rabs (val (lget e v)) <= em) ->
   step (Homogenize fuel q) (o, fs) = Ok (o', fs', r) -> lookup id (o_gps o) = Some g -> g_n g = None -> below o g ->
   exists ss, step (GetStress id) (o', fs') = Ok (o', fs', RBuf (Some ss)) /\ length ss = 3%nat /\ forall v, (0 <= v < 3)%Z -> fin (lget ss v) /\
     ly * Rabs (val (lget ss v) - dot 3 (K v) (fun i => val (lget e i))) <=
       (1 + gam 7) * (em * rsum (zrange 0 3) (gap v)) + gam 7 * (ly * (em * rsum (zrange 0 3) (fun i => Rabs (K v i)) + 6 * tiny))).
Proof. exact linear_double2. Qed.
Print Assumptions C107_linear_tangent_2D.
