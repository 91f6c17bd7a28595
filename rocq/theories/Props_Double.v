(** C103-C105: a whole run of the library in IEEE doubles against the exact body, that of the same
    data in real numbers.  [flt] is Flocq's type of doubles, [val] the real number one stands for
    (0 for the infinities and NaN), [fin x] says that x is neither infinite nor NaN, [p2 e] is 2^e;
    [uro] is 2^-53, [eta] is 2^-1075, [tiny] is 2^-1022, [gam n] is (1 + uro)^n - 1 (C99_size: about
    n 2^-53).  [exact_env V] is V with the reals its doubles stand for, its cell sizes, Lame moduli
    and bulk moduli computed in real numbers. *)
From Coq Require Import Reals.
From Flocq Require Import BinarySingleNaN.
From Verif Require Import Base Scalar EllSpec EllFinal CgProps AssemblyModel AsmPure AsmBnd AsmRun AsmSpec AsmProps AsmEquil FemGen FemEquil MicroModel OutputModel NewtonBase ApiBase ApiRun ApiHist Build ApiSpec ApiProps ApiCases
  Tangent KornProps EffBound BinInst FloatSum FloatFem FloatBody FloatMat FloatNewton FloatBnd FloatShadow FloatAnswer FloatFin FloatSize FloatObj FloatRun FloatCase FloatFlat.
Open Scope Z_scope.
Open Scope R_scope.
Notation val := (@B2R 53 1024).

Example C103_example_3D : exists (V : env flt) u r vo vn b b' nl vn' er s vn2, fair V 3 4 /\ v_dim V = 3%Z /\ gam (S (Z.to_nat (ndofs V))) <= / 2 /\ p2 (-100) <= 1 <= p2 299 /\ near_field V u r 1 /\
  has_old V vo /\ alen vn = nvars V /\ alen b = ndofs V /\ assembly_rhs V u vo vn b = Ok (b', nl, vn', er) /\ calc_ave_stress V u vo vn = Ok (s, vn2).
Proof. exact case_body3. Qed.
Example C103_example_2D : exists (V : env flt) u r vo vn b b' nl vn' er s vn2, fair V 3 4 /\ v_dim V = 2%Z /\ gam (S (Z.to_nat (ndofs V))) <= / 2 /\ p2 (-100) <= 1 <= p2 299 /\ near_field V u r 1 /\
  alen b = ndofs V /\ assembly_rhs V u vo vn b = Ok (b', nl, vn', er) /\ calc_ave_stress V u vo vn = Ok (s, vn2).
Proof. exact case_body2. Qed.
(** C103.  Every object of moderate data is fair: sides between 2^-60 and 2^60, at most 2^40 cells
    in a line, Young's moduli from 2^-90, Poisson's ratios between -1 and 1/2, moduli up to M, and in
    3D no plastic material. *)
Theorem C103_fair : forall fuel0 q0 (j : junk flt) dim nx ny nz mtype mp mt ps o H L M,
  valid_args dim nx ny nz mtype mp mt ps -> total_junk j ->
  construct fuel0 q0 j dim [nx; ny; nz] mtype mp mt ps = Ok o -> fair_args dim nx ny nz mp ps H L M -> (dim = 3%Z -> no_plastic mt) ->
  (forall i, (i = 0 \/ i = 10)%Z -> val (lget ps i) / (1 + val (lget ps (i + 1))) <= M /\ val (lget ps i) / ((1 + val (lget ps (i + 1))) * (1 - 2 * val (lget ps (i + 1)))) <= M) ->
  fair (o_env o) H M /\ v_dim (o_env o) = dim.
Proof. exact fair_object. Qed.
Print Assumptions C103_fair.
(** On a fair body the doubles of the residual, of the average stress and of the average strain of a
    field are finite, and they are the values that the same code computes in real numbers of the exact
    body, for any reals near the field, up to the given number of roundings of the largest term. *)
Theorem C103_same_code_3D : forall (V : env flt) (H M U : R) (u : arr flt) (r : arr R), fair V H M -> p2 (-100) <= U <= p2 299 -> gam (S (Z.to_nat (ndofs V))) <= / 2 -> near_field V u r U ->
  v_dim V = 3%Z -> let vol := v_dx (exact_env V) * v_dy (exact_env V) * v_dz (exact_env V) in
  (forall vo vn b b' nl vn' er, has_old V vo -> alen vn = nvars V -> alen b = ndofs V -> assembly_rhs V u vo vn b = Ok (b', nl, vn', er) ->
   forall vo2 vn2 b2, alen vn2 = nvars V -> alen b2 = ndofs V -> exists b3 nl3 vn3 n, assembly_rhs (exact_env V) r vo2 vn2 b2 = Ok (b3, nl3, vn3, n) /\
   forall a x, (0 <= a < ndofs V)%Z -> aget b' a = Some x -> fin x /\ exists y, aget b3 a = Some y /\ Rabs (val x - y) <= gam 165 * (4608 * (H * H) * M * vol * U)) /\
  (forall vo vn s vn', has_old V vo -> alen vn = nvars V -> calc_ave_stress V u vo vn = Ok (s, vn') ->
   forall vo2 vn2, alen vn2 = nvars V -> exists s2 vn3, calc_ave_stress (exact_env V) r vo2 vn2 = Ok (s2, vn3) /\
   forall v, (0 <= v < 6)%Z -> fin (lget s v) /\ Rabs (val (lget s v) - lget s2 v) <= gam (103 + Z.to_nat ((v_nx V - 1) * (v_ny V - 1) * (v_nz V - 1))) * (96 * (M * H) * v_lz (exact_env V) * U)) /\
  exists e e2, calc_ave_strain V u = Ok e /\ calc_ave_strain (exact_env V) r = Ok e2 /\
   forall v, (0 <= v < 6)%Z -> fin (lget e v) /\ Rabs (val (lget e v) - lget e2 v) <= gam (103 + Z.to_nat ((v_nx V - 1) * (v_ny V - 1) * (v_nz V - 1))) * (24 * H * v_lz (exact_env V) * U).
Proof. exact body_double3. Qed.
Print Assumptions C103_same_code_3D.
Theorem C103_same_code_2D : forall (V : env flt) (H M U : R) (u : arr flt) (r : arr R), fair V H M -> p2 (-100) <= U <= p2 299 -> gam (S (Z.to_nat (ndofs V))) <= / 2 -> near_field V u r U ->
  v_dim V = 2%Z -> let vol := v_dx (exact_env V) * v_dy (exact_env V) in
  (forall vo vn b b' nl vn' er, alen b = ndofs V -> assembly_rhs V u vo vn b = Ok (b', nl, vn', er) ->
   forall vo2 vn2 b2, alen b2 = ndofs V -> exists b3 nl3 vn3 n, assembly_rhs (exact_env V) r vo2 vn2 b2 = Ok (b3, nl3, vn3, n) /\
   forall a x, (0 <= a < ndofs V)%Z -> aget b' a = Some x -> fin x /\ exists y, aget b3 a = Some y /\ Rabs (val x - y) <= gam 165 * (1152 * (H * H) * M * vol * U)) /\
  (forall vo vn s vn', calc_ave_stress V u vo vn = Ok (s, vn') ->
   forall vo2 vn2, exists s2 vn3, calc_ave_stress (exact_env V) r vo2 vn2 = Ok (s2, vn3) /\
   forall v, (0 <= v < 3)%Z -> fin (lget s v) /\ Rabs (val (lget s v) - lget s2 v) <= gam (103 + Z.to_nat ((v_nx V - 1) * (v_ny V - 1))) * (96 * (M * H) * 1 * U)) /\
  exists e e2, calc_ave_strain V u = Ok e /\ calc_ave_strain (exact_env V) r = Ok e2 /\
   forall v, (0 <= v < 3)%Z -> fin (lget e v) /\ Rabs (val (lget e v) - lget e2 v) <= gam (103 + Z.to_nat ((v_nx V - 1) * (v_ny V - 1))) * (24 * H * 1 * U).
Proof. exact body_double2. Qed.
Print Assumptions C103_same_code_2D.

Example C104_example_3D : exists (V : env flt) (w w' : work flt) nl it er s, fair V 3 4 /\ v_dim V = 3%Z /\ val (v_lx V) <= 1 /\ val (v_ly V) <= 1 /\ val (v_lz V) <= 1 /\ p2 (-40) <= 2 <= p2 100 /\
  (forall v, (0 <= v < 6)%Z -> fin (lget eps_h v) /\ Rabs (val (lget eps_h v)) <= 2) /\ stiff3 (exact_env V) (1 / 2) 4 /\ gam (S (Z.to_nat (ndofs V))) <= / 2 /\ theta3 V 3 4 (1 / 2) + gam 12 <= / 2 /\ wok V w /\
  respond fuel40 counting V eps_h w = Ok (w', nl, it, er, s) /\ oltb er nr_tol = true.
Proof. exact case_respond3. Qed.
Example C104_example_2D : exists (V : env flt) (w w' : work flt) nl it er s, fair V 3 4 /\ v_dim V = 2%Z /\ val (v_lx V) <= 1 /\ val (v_ly V) <= 1 /\ p2 (-40) <= 2 <= p2 100 /\
  (forall v, (0 <= v < 6)%Z -> fin (lget eps_h v) /\ Rabs (val (lget eps_h v)) <= 2) /\ stiff2 (exact_env V) (1 / 2) 4 /\ gam (S (Z.to_nat (ndofs V))) <= / 2 /\ theta2 V 3 4 (1 / 2) + gam 12 <= / 2 /\ wok V w /\
  respond fuel40 counting V eps_h w = Ok (w', nl, it, er, s) /\ oltb er nr_tol = true.
Proof. exact case_respond2. Qed.
(** C104.  One accepted equilibrium in doubles (the error below 1e-5), on a fair body whose data are
    not too large for the precision: the displacements are finite and bounded by U, the stresses are finite, the error is what
    assembly_rhs computes of the returned field, and beside it there is a field of the exact body with
    the same boundary data, near the doubles, of nearly that residual and nearly these stresses. *)
Theorem C104_respond_3D : forall V H M L em m (eps : list flt) fuel pk (w w' : work flt) nl it er s,
  fair V H M -> v_dim V = 3%Z ->
  val (v_lx V) <= L -> val (v_ly V) <= L -> val (v_lz V) <= L -> p2 (-40) <= em <= p2 100 ->
  (forall v, (0 <= v < 6)%Z -> fin (lget eps v) /\ Rabs (val (lget eps v)) <= em) -> 0 < m -> 0 <= M -> stiff3 (exact_env V) m M ->
  gam (S (Z.to_nat (ndofs V))) <= / 2 -> theta3 V H M m + gam 12 <= / 2 -> wok V w -> respond fuel pk V eps w = Ok (w', nl, it, er, s) -> oltb er nr_tol = true ->
  let W := exact_env V in let nb := norm_bound (ndofs V) er in let U := size3 V M L em m nb in
  (forall a x, (0 <= a < ndofs V)%Z -> aget (w_u w') a = Some x -> fin x /\ Rabs (val x) <= U) /\ (forall v, (0 <= v < 6)%Z -> fin (lget s v)) /\
  (exists vn b b' vn', alen vn = nvars V /\ alen b = ndofs V /\ assembly_rhs V (w_u w') (w_vold w) vn b = Ok (b', nl, vn', er)) /\
  exists v vo b n t, state3 W (map val eps) v vo b n t /\
    (forall a x y, (0 <= a < ndofs V)%Z -> aget (w_u w') a = Some x -> aget v a = Some y -> Rabs (val x - y) <= gam 12 * U) /\
    n <= nb + 4608 * (sqrt (INR (Z.to_nat (ndofs V))) * gam 165) * (H * H) * M * (v_dx W * v_dy W * v_dz W) * U /\
    forall i, (0 <= i < 6)%Z -> Rabs (val (lget s i) - lget t i) <= gam (103 + length (els3 V)) * (96 * (M * H) * v_lz W * U).
Proof. exact respond_double3. Qed.
Print Assumptions C104_respond_3D.
Theorem C104_respond_2D : forall V H M L em m (eps : list flt) fuel pk (w w' : work flt) nl it er s,
  fair V H M -> v_dim V = 2%Z ->
  val (v_lx V) <= L -> val (v_ly V) <= L -> p2 (-40) <= em <= p2 100 ->
  (forall v, (0 <= v < 6)%Z -> fin (lget eps v) /\ Rabs (val (lget eps v)) <= em) -> 0 < m -> 0 <= M -> stiff2 (exact_env V) m M ->
  gam (S (Z.to_nat (ndofs V))) <= / 2 -> theta2 V H M m + gam 12 <= / 2 -> wok V w -> respond fuel pk V eps w = Ok (w', nl, it, er, s) -> oltb er nr_tol = true ->
  let W := exact_env V in let nb := norm_bound (ndofs V) er in let U := size2 V M L em m nb in
  (forall a x, (0 <= a < ndofs V)%Z -> aget (w_u w') a = Some x -> fin x /\ Rabs (val x) <= U) /\ (forall v, (0 <= v < 3)%Z -> fin (lget s v)) /\
  (exists vn b b' vn', alen vn = nvars V /\ alen b = ndofs V /\ assembly_rhs V (w_u w') (w_vold w) vn b = Ok (b', nl, vn', er)) /\
  exists v b n t, state2 W (map val eps) v b n t /\
    (forall a x y, (0 <= a < ndofs V)%Z -> aget (w_u w') a = Some x -> aget v a = Some y -> Rabs (val x - y) <= gam 12 * U) /\
    n <= nb + 1152 * (sqrt (INR (Z.to_nat (ndofs V))) * gam 165) * (H * H) * M * (v_dx W * v_dy W) * U /\
    forall i, (0 <= i < 3)%Z -> Rabs (val (lget s i) - lget t i) <= gam (103 + length (els2 V)) * (96 * (M * H) * 1 * U).
Proof. exact respond_double2. Qed.
Print Assumptions C104_respond_2D.

Example C105_example_3D : exists o0 o fs o' fs' r g g' er,
  valid_args 3 2 3 4 1 half [0; 2]%Z pair20 /\ total_junk (flat_junk (ofZ 0 : flt)) /\ construct fuel40 (fun _ => counting) (flat_junk (ofZ 0)) 3 [2; 3; 4]%Z 1 half [0; 2]%Z pair20 = Ok o0 /\
  fair_args 3 2 3 4 half pair20 3 1 4 /\ no_plastic [0; 2]%Z /\ moduli3 (map val pair20) (1 / 2) 4 /\ gam (S (Z.to_nat (2 * 3 * 4 * 3))) <= / 2 /\
  46080 * (val (lget half 0) * val (lget half 0)) * (3 * 3) * (4 / (1 / 2)) * (sqrt (INR (Z.to_nat (2 * 3 * 4 * 3))) * gam 165) + gam 12 <= / 2 /\
  reaches o0 [SetStrain 7 eps_h] o fs /\ last_set 7 eps_h [SetStrain 7 eps_h] /\ p2 (-40) <= 2 <= p2 100 /\ (forall v, (0 <= v < 6)%Z -> fin (lget eps_h v) /\ Rabs (val (lget eps_h v)) <= 2) /\
  step one_hom (o, fs) = Ok (o', fs', r) /\ lookup 7 (o_gps o) = Some g /\ ~ below o g /\ lookup 7 (o_gps o') = Some g' /\ aget (g_err g') 0 = Some er /\ oltb er nr_tol = true.
Proof. exact flat_answers3. Qed.
Example C105_example_2D : exists o0 o fs o' fs' r g g' er,
  valid_args 2 2 4 1 1 half [0; 2]%Z pair20 /\ total_junk (flat_junk (ofZ 0 : flt)) /\ construct fuel40 (fun _ => counting) (flat_junk (ofZ 0)) 2 [2; 4; 1]%Z 1 half [0; 2]%Z pair20 = Ok o0 /\
  fair_args 2 2 4 1 half pair20 3 1 4 /\ moduli2 (map val pair20) (1 / 2) 4 /\ gam (S (Z.to_nat (2 * 4 * 2))) <= / 2 /\
  4608 * (val (lget half 0) * val (lget half 0)) * (3 * 3) * (4 / (1 / 2)) * (sqrt (INR (Z.to_nat (2 * 4 * 2))) * gam 165) + gam 12 <= / 2 /\
  reaches o0 [SetStrain 7 eps_h] o fs /\ last_set 7 eps_h [SetStrain 7 eps_h] /\ p2 (-40) <= 2 <= p2 100 /\ (forall v, (0 <= v < 3)%Z -> fin (lget eps_h v) /\ Rabs (val (lget eps_h v)) <= 2) /\
  step one_hom (o, fs) = Ok (o', fs', r) /\ lookup 7 (o_gps o) = Some g /\ ~ below o g /\ lookup 7 (o_gps o') = Some g' /\ aget (g_err g') 0 = Some er /\ oltb er nr_tol = true.
Proof. exact flat_answers2. Qed.
(** C105.  The library in doubles, from its arguments to its answers: there is one symmetric matrix K,
    the effective stiffness of the exact body (the average stress of every exact equilibrium is K times
    its strain), and after any calls that leave a point of finite strain to be solved, every accepted
    stress that homogenize stores is finite and is K times that strain up to the reported error and the roundings. *)
Theorem C105_answers_3D : forall fuel0 q0 (j : junk flt) nx ny nz mtype (mp : list flt) mt (ps : list flt) o0 H L m M,
  let lx := val (lget mp 0) in let ly := val (lget mp 1) in let lz := val (lget mp 2) in let cells := ((nx - 1) * (ny - 1) * (nz - 1))%Z in
  let vol := lx / IZR (nx - 1) * (ly / IZR (ny - 1)) * (lz / IZR (nz - 1)) in let N := Z.to_nat (nx * ny * nz * 3) in let rho := sqrt (INR N) * gam 165 in
  valid_args 3 nx ny nz mtype mp mt ps -> total_junk j -> construct fuel0 q0 j 3 [nx; ny; nz] mtype mp mt ps = Ok o0 ->
  fair_args 3 nx ny nz mp ps H L M -> no_plastic mt -> 0 < m -> moduli3 (map val ps) m M ->
  gam (S N) <= / 2 -> 46080 * (lx * lx) * (H * H) * (M / m) * rho + gam 12 <= / 2 ->
  exists K : Z -> Z -> R, (forall v i, (0 <= v < 6)%Z -> (0 <= i < 6)%Z -> K v i = K i v) /\
  (forall e, exists u vo b s, state3 (exact_env (o_env o0)) e u vo b 0 s) /\
  (forall e u vo b s, state3 (exact_env (o_env o0)) e u vo b 0 s -> forall v, (0 <= v < 6)%Z -> lget s v = dot 6 (K v) (lget e)) /\
  forall cs o fs fuel q id e o' fs' r em g, reaches o0 cs o fs -> last_set id e cs -> p2 (-40) <= em <= p2 100 -> (forall v, (0 <= v < 6)%Z -> fin (lget e v) /\ Rabs (val (lget e v)) <= em) ->
  step (Homogenize fuel q) (o, fs) = Ok (o', fs', r) -> lookup id (o_gps o) = Some g -> ~ below o g ->
  exists g' er, lookup id (o_gps o') = Some g' /\ aget (g_err g') 0 = Some er /\
  let nb := (1 + 4 * gam (S N)) * (val er + eta) + 2 * sqrt (INR N * tiny) in
  let U := 2 * (2 * (em * L) + lx * em * sqrt (45 * (IZR cells * M) / m) + 10 * (lx * lx) / (m * vol) * nb) in
  (oltb er nr_tol = true -> forall v x, (0 <= v < 6)%Z -> aget (g_stress g') v = Some x -> fin x /\
    ly * Rabs (val x - dot 6 (K v) (fun i => val (lget e i))) <=
      (nb + 4608 * rho * (H * H) * M * vol * U) * sqrt (10 * (IZR cells * M) / m) + ly * (gam (103 + Z.to_nat cells) * (96 * (M * H) * lz * U))).
Proof. exact answers_double3. Qed.
Print Assumptions C105_answers_3D.
Theorem C105_answers_2D : forall fuel0 q0 (j : junk flt) nx ny nz mtype (mp : list flt) mt (ps : list flt) o0 H L m M,
  let lx := val (lget mp 0) in let ly := val (lget mp 1) in let cells := ((nx - 1) * (ny - 1))%Z in
  let vol := lx / IZR (nx - 1) * (ly / IZR (ny - 1)) in let N := Z.to_nat (nx * ny * 2) in let rho := sqrt (INR N) * gam 165 in
  valid_args 2 nx ny nz mtype mp mt ps -> total_junk j -> construct fuel0 q0 j 2 [nx; ny; nz] mtype mp mt ps = Ok o0 ->
  fair_args 2 nx ny nz mp ps H L M -> 0 < m -> moduli2 (map val ps) m M ->
  gam (S N) <= / 2 -> 4608 * (lx * lx) * (H * H) * (M / m) * rho + gam 12 <= / 2 ->
  exists K : Z -> Z -> R, (forall v i, (0 <= v < 3)%Z -> (0 <= i < 3)%Z -> K v i = K i v) /\
  (forall e, exists u b s, state2 (exact_env (o_env o0)) e u b 0 s) /\
  (forall e u b s, state2 (exact_env (o_env o0)) e u b 0 s -> forall v, (0 <= v < 3)%Z -> lget s v = dot 3 (K v) (lget e)) /\
  forall cs o fs fuel q id e o' fs' r em g, reaches o0 cs o fs -> last_set id e cs -> p2 (-40) <= em <= p2 100 -> (forall v, (0 <= v < 3)%Z -> fin (lget e v) /\ Rabs (val (lget e v)) <= em) ->
  step (Homogenize fuel q) (o, fs) = Ok (o', fs', r) -> lookup id (o_gps o) = Some g -> ~ below o g ->
  exists g' er, lookup id (o_gps o') = Some g' /\ aget (g_err g') 0 = Some er /\
  let nb := (1 + 4 * gam (S N)) * (val er + eta) + 2 * sqrt (INR N * tiny) in
  let U := 2 * (2 * (em * L) + lx * em * sqrt (10 * (IZR cells * M) / m) + 4 * (lx * lx) / (m * vol) * nb) in
  (oltb er nr_tol = true -> forall v x, (0 <= v < 3)%Z -> aget (g_stress g') v = Some x -> fin x /\
    ly * Rabs (val x - dot 3 (K v) (fun i => val (lget e i))) <=
      (nb + 1152 * rho * (H * H) * M * vol * U) * sqrt (4 * (IZR cells * M) / m) + ly * (gam (103 + Z.to_nat cells) * (96 * (M * H) * 1 * U))).
Proof. exact answers_double2. Qed.
Print Assumptions C105_answers_2D.
