(** C93, C94: histories of objects under any sequence of calls.  committed V g (ApiHist.v) is the
    point's stored internal variables, zero before it first flows; var3 V ex ey ez p i the place of
    variable i of Gauss point p of a cell: 0-5 plastic strain, 6 hardening.  hard_args asks the
    plastic phases for yield stress and hardening modulus that are not negative, yield_args for a
    positive yield stress. *)
From Coq Require Import Reals.
From Verif Require Import Base Scalar EllModel Grid AssemblyModel AsmPure FemGen FemPd FemRhs AsmSpec AsmEx PlastRef AsmCases MonoBody MicroModel OutputModel NewtonBase ApiBase ApiRun ApiHist Build ApiSpec
  ApiProps ApiCases OneCell Tangent EnergyProps HistProps.
Open Scope Z_scope.
Open Scope R_scope.

Example C93_example : exists (j : junk R) o0 o1 fs1 o2 fs2 r2 o3 fs3 r3 g1 g2 g3 al, valid_args 3 2 2 2 0 cmp [1%Z; 1%Z] (cps 1 1) /\ body_args 3 cmp (cps 1 1) /\ hard_args [1%Z; 1%Z] (cps 1 1) /\
  yield_args [1%Z; 1%Z] (cps 1 1) /\ total_junk j /\ construct fuel40 (fun _ => counting) j 3 [2%Z; 2%Z; 2%Z] 0 cmp [1%Z; 1%Z] (cps 1 1) = Ok o0 /\
  reaches o0 load o1 fs1 /\ step hom (o1, fs1) = Ok (o2, fs2, r2) /\ step UpdateVars (o2, fs2) = Ok (o3, fs3, r3) /\
  lookup 1 (o_gps o1) = Some g1 /\ lookup 1 (o_gps o2) = Some g2 /\ lookup 1 (o_gps o3) = Some g3 /\ ~ below o1 g1 /\ aget (g_err g2) 0 = Some 0 /\
  is_cell3 (o_env o0) 0 0 0 /\ cell_mat (o_env o0) 0 0 0 (mat1 1 1) /\ m_plast (mat1 1 1) = Some true /\
  committed (o_env o0) g1 (var3 (o_env o0) 0 0 0 0 6) = Some 0 /\ committed (o_env o0) g3 (var3 (o_env o0) 0 0 0 0 6) = Some al /\ 0 < al.
Proof. exact flow_committed. Qed.
(** C93.  Whatever calls are made, in whatever order and whether or not the solves converge, at every
    plastic Gauss point of every stored point the committed hardening is never negative and never
    decreases, and the committed plastic strain never changes the volume. *)
Theorem C93_hardening_grows : forall fuel orc (j : junk R) nx ny nz mtype mp mt ps o0, valid_args 3 nx ny nz mtype mp mt ps -> body_args 3 mp ps -> total_junk j ->
  construct fuel orc j 3 [nx; ny; nz] mtype mp mt ps = Ok o0 ->
  forall cs1 o1 fs1 cs2 o2 fs2 rs id g1, hard_args mt ps -> reaches o0 cs1 o1 fs1 -> run cs2 (o1, fs1) = Ok (o2, fs2, rs) -> lookup id (o_gps o1) = Some g1 ->
  exists g2, lookup id (o_gps o2) = Some g2 /\ forall ex ey ez p m, is_cell3 (o_env o0) ex ey ez -> (0 <= p < 8)%Z -> cell_mat (o_env o0) ex ey ez m -> m_plast m = Some true ->
    exists ep1 al1 ep2 al2,
      (forall i, (0 <= i < 6)%Z -> committed (o_env o0) g1 (var3 (o_env o0) ex ey ez p i) = Some (ep1 i) /\ committed (o_env o0) g2 (var3 (o_env o0) ex ey ez p i) = Some (ep2 i)) /\
      committed (o_env o0) g1 (var3 (o_env o0) ex ey ez p 6) = Some al1 /\ committed (o_env o0) g2 (var3 (o_env o0) ex ey ez p 6) = Some al2 /\
      0 <= al1 <= al2 /\ ep1 0%Z + ep1 1%Z + ep1 2%Z = 0 /\ ep2 0%Z + ep2 1%Z + ep2 2%Z = 0.
Proof. exact hardening_grows. Qed.
Print Assumptions C93_hardening_grows.
(** So every history an object can hold satisfies what C78-C92 ask of yield stresses. *)
Theorem C93_yield : forall fuel orc (j : junk R) nx ny nz mtype mp mt ps o0, valid_args 3 nx ny nz mtype mp mt ps -> body_args 3 mp ps -> total_junk j ->
  construct fuel orc j 3 [nx; ny; nz] mtype mp mt ps = Ok o0 ->
  forall cs o fs id g vo, reaches o0 cs o fs -> lookup id (o_gps o) = Some g ->
  full vo (nvars (o_env o0)) /\ (forall i, (0 <= i < nvars (o_env o0))%Z -> aget vo i = committed (o_env o0) g i) ->
  (hard_args mt ps -> yield_ok (o_env o0) vo) /\ (yield_args mt ps -> yield_pos (o_env o0) vo).
Proof. exact history_yield. Qed.
Print Assumptions C93_yield.

Example C94_example : exists (j : junk R) o0 o1 fs1 o2 fs2 r2 o3 fs3 r3 g1 g2 g3 al, valid_args 3 2 2 2 0 cmp [1%Z; 1%Z] (cps 1 1) /\ body_args 3 cmp (cps 1 1) /\ hard_args [1%Z; 1%Z] (cps 1 1) /\
  yield_args [1%Z; 1%Z] (cps 1 1) /\ total_junk j /\ construct fuel40 (fun _ => counting) j 3 [2%Z; 2%Z; 2%Z] 0 cmp [1%Z; 1%Z] (cps 1 1) = Ok o0 /\
  reaches o0 load o1 fs1 /\ step hom (o1, fs1) = Ok (o2, fs2, r2) /\ step UpdateVars (o2, fs2) = Ok (o3, fs3, r3) /\
  lookup 1 (o_gps o1) = Some g1 /\ lookup 1 (o_gps o2) = Some g2 /\ lookup 1 (o_gps o3) = Some g3 /\ ~ below o1 g1 /\ aget (g_err g2) 0 = Some 0 /\
  is_cell3 (o_env o0) 0 0 0 /\ cell_mat (o_env o0) 0 0 0 (mat1 1 1) /\ m_plast (mat1 1 1) = Some true /\
  committed (o_env o0) g1 (var3 (o_env o0) 0 0 0 0 6) = Some 0 /\ committed (o_env o0) g3 (var3 (o_env o0) 0 0 0 0 6) = Some al /\ 0 < al.
Proof. exact flow_committed. Qed.
(** C94.  For every stored point of every reachable object there is one exact equilibrium stress s of
    its strain and committed history, and bounds K and d, such that any homogenize that solves the
    full problem and reports an error er below the tolerance and d stores a stress within the
    square root of K er of s, whatever the fuel, the oracle of the solver and the work arrays. *)
Theorem C94_stress_accuracy : forall fuel orc (j : junk R) nx ny nz mtype mp mt ps o0 cs o fs id g, valid_args 3 nx ny nz mtype mp mt ps -> body_args 3 mp ps -> yield_args mt ps -> total_junk j ->
  construct fuel orc j 3 [nx; ny; nz] mtype mp mt ps = Ok o0 -> reaches o0 cs o fs -> lookup id (o_gps o) = Some g ->
  let V := o_env o0 in let e := map (oval (g_strain g)) (zrange 0 6) in
  exists vo s K d, full vo (nvars V) /\ (forall i, (0 <= i < nvars V)%Z -> aget vo i = committed V g i) /\ 0 <= K /\ 0 < d /\ (exists u b', state3 V e u vo b' 0 s) /\
  forall fuel1 orc1 o' fs' r g' er, step (Homogenize fuel1 orc1) (o, fs) = Ok (o', fs', r) -> g_n g <> None \/ ~ below o g -> lookup id (o_gps o') = Some g' ->
    aget (g_err g') 0 = Some er -> er < 1 / 100000 -> er <= d ->
    forall v, (0 <= v < 6)%Z -> exists x, aget (g_stress g') v = Some x /\ (x - lget s v) * (x - lget s v) <= K * er.
Proof. exact stress_accuracy. Qed.
Print Assumptions C94_stress_accuracy.
