(** C38, C40-C49, C52, C56, C68: the object and its call sequences.  Generic statements hold for
    every scalar arithmetic T.  is_object o0: the constructor returned o0 from valid
    arguments, for some content of fresh memory; reaches o0 cs o fs: the calls cs completed
    on it and left o.  Failing calls are the subject of C68. *)
From Coq Require Import Reals.
From Verif Require Import Base Scalar EllSpec EllModel AssemblyModel AsmSpec PlastRef MicroModel OutputModel NewtonBase ApiBase ApiRun ApiHist Build ApiExact ApiSpec ApiProps ApiCases ApiCommit OneCell ApiEx RespondReal Tangent.
Open Scope Z_scope.

(** The hypotheses hold for a 4x5x3 cube with a stiff sphere, plastic and damage materials, two
    Gauss points and a story of six calls, for any threshold: *)
Example C40_example : forall tol : R, exists o0 o fs, is_object o0 /\ env_of 3 4 5 3 0 mp5 [1; 2] ps20 tol (o_env o0) /\ reaches o0 story o fs.
Proof. exact story_runs. Qed.
Example C40_example_calls : set_ids story = [7; 3; 7] /\ first_use (set_ids story) = [7; 3] /\ last_set 7 (eps6 2) story /\ homogenised 3 story /\ ~ In 5 (set_ids story).
Proof. exact story_facts. Qed.
Example C38_example : forall tol : R, exists o0 o fs, is_object o0 /\ env_of 2 4 5 1 1 mp5 [1; 0] ps20 tol (o_env o0) /\ v_dim (o_env o0) = 2 /\ reaches o0 story o fs.
Proof. exact story2_runs. Qed.
Example C42_example : exists (o0 : obj R) o fs, is_object o0 /\ reaches o0 load o fs /\ In 1 (set_ids load) /\ ~ homogenised 1 load.
Proof. exact not_yet. Qed.
Example C43_example : exists (o0 : obj R) o fs g o' fs' r, is_object o0 /\ reaches o0 load o fs /\ lookup 1 (o_gps o) = Some g /\ g_n g = None /\ below o g /\
  (exists i, lget (shear 2) i <> 0%R /\ oval (g_strain g) i = lget (shear 2) i) /\
  (forall g', In g' (o_gps o) -> g_n g' = None /\ below o g') /\ step hom (o, fs) = Ok (o', fs', r).
Proof. exact on_shortcut. Qed.
Example C44_example : forall tol : R, exists o0 o fs o' fs' r, is_object o0 /\ env_of 3 4 5 3 0 mp5 [1; 2] ps20 tol (o_env o0) /\ reaches o0 story o fs /\
  step hom (o, fs) = Ok (o', fs', r) /\ exists g, lookup 7 (o_gps o) = Some g /\ stored (o_env o) g (eps6 2).
Proof. exact story_hom. Qed.
Example C47_example : exists (o0 : obj R) cs o fs id, is_object o0 /\ reaches o0 cs o fs /\ get_nl_flag id (o_gps o) = 1.
Proof. exact flagged. Qed.
Example C68_example : exists (o0 : obj R) fs0, is_object o0 /\
  run [SetStrain 1 [0%R]] (o0, fs0) = Err OOB /\ run [SetStrain 1 (shear 2); GetStress 1] (o0, fs0) = Err Uninit.
Proof. exact failures. Qed.

(** C38.  In 2D the flag is 0 for every id and no Gauss point has internal variables. *)
Theorem C38_always_linear_2d : forall (T : Type) (OT : Ops T) (o0 : obj T) cs o fs,
  is_object o0 -> reaches o0 cs o fs -> v_dim (o_env o0) = 2 ->
  (forall id, step (NlFlag id) (o, fs) = Ok (o, fs, RInt 0)) /\ forall g, In g (o_gps o) -> g_n g = None /\ g_k g = None.
Proof. exact @always_linear_2D. Qed.
Print Assumptions C38_always_linear_2d.

(** C40.  The ids are those of the set_macro_strain calls, in order of first use, without
    repetition; each stores the strain of the last call with that id. *)
Theorem C40_keyed_store : forall (T : Type) (OT : Ops T) (o0 : obj T) cs o fs,
  is_object o0 -> reaches o0 cs o fs ->
  map g_id (o_gps o) = first_use (set_ids cs) /\ NoDup (map g_id (o_gps o)) /\
  (forall id, ~ In id (set_ids cs) -> lookup id (o_gps o) = None) /\
  forall id eps, last_set id eps cs -> exists g, lookup id (o_gps o) = Some g /\ stored (o_env o) g eps.
Proof. exact @keyed_store. Qed.
Print Assumptions C40_keyed_store.
(** set_macro_strain leaves other ids alone, and of its own id changes only the strain. *)
Theorem C40_set_only_one : forall (T : Type) (OT : Ops T) (o0 : obj T) cs o fs id eps o' fs' r,
  is_object o0 -> reaches o0 cs o fs -> step (SetStrain id eps) (o, fs) = Ok (o', fs', r) ->
  (forall id', id' <> id -> lookup id' (o_gps o') = lookup id' (o_gps o)) /\
  (forall g, lookup id (o_gps o) = Some g -> exists g', lookup id (o_gps o') = Some g' /\
     g_stress g' = g_stress g /\ g_ctan g' = g_ctan g /\ g_n g' = g_n g /\ g_k g' = g_k g /\ g_its g' = g_its g /\ g_err g' = g_err g) /\
  fs' = fs.
Proof. exact @set_only_one. Qed.
Print Assumptions C40_set_only_one.

(** C41.  Unknown ids: buffers untouched, flag 0, no file. *)
Theorem C41_unknown_ids : forall (T : Type) (OT : Ops T) (o0 : obj T) cs o fs id,
  is_object o0 -> reaches o0 cs o fs -> ~ In id (set_ids cs) ->
  step (GetStress id) (o, fs) = Ok (o, fs, RBuf None) /\ step (GetCtan id) (o, fs) = Ok (o, fs, RBuf None) /\
  step (NlFlag id) (o, fs) = Ok (o, fs, RInt 0) /\ forall fuel pk t, step (Output fuel pk t id) (o, fs) = Ok (o, fs, RUnit).
Proof. exact @unknown_queries. Qed.
Print Assumptions C41_unknown_ids.
Theorem C41_queries_pure : forall (T : Type) (OT : Ops T) (o : obj T) fs c o' fs' r,
  (exists id, c = GetStress id \/ c = GetCtan id \/ c = NlFlag id) -> step c (o, fs) = Ok (o', fs', r) -> o' = o /\ fs' = fs.
Proof. exact @queries_pure. Qed.
Print Assumptions C41_queries_pure.

(** C42.  Results are defined exactly for the ids homogenised after their first use. *)
Theorem C42_results_defined : forall (T : Type) (OT : Ops T) (o0 : obj T) cs o fs id,
  is_object o0 -> reaches o0 cs o fs -> In id (set_ids cs) ->
  (homogenised id cs ->
     (exists l, step (GetStress id) (o, fs) = Ok (o, fs, RBuf (Some l)) /\ Z.of_nat (length l) = nvoi (o_env o)) /\
     (exists l, step (GetCtan id) (o, fs) = Ok (o, fs, RBuf (Some l)) /\ Z.of_nat (length l) = nvoi (o_env o) * nvoi (o_env o))) /\
  (~ homogenised id cs -> step (GetStress id) (o, fs) = Err Uninit /\ step (GetCtan id) (o, fs) = Err Uninit).
Proof. exact @results_defined. Qed.
Print Assumptions C42_results_defined.

(** C43.  The linear path. *)
Theorem C43_linear_point : forall (T : Type) (OT : Ops T) (o0 : obj T) cs o fs fuel orc o' fs' r id g,
  is_object o0 -> reaches o0 cs o fs ->
  step (Homogenize fuel orc) (o, fs) = Ok (o', fs', r) -> lookup id (o_gps o) = Some g -> g_n g = None -> below o g ->
  step (GetStress id) (o', fs') = Ok (o', fs', RBuf (Some (map (predicted o g) (zrange 0 (nvoi (o_env o)))))) /\
  step (GetCtan id) (o', fs') = Ok (o', fs', RBuf (Some (map (oval (o_ctan o)) (zrange 0 (nvoi (o_env o) * nvoi (o_env o)))))) /\
  step (NlFlag id) (o', fs') = Ok (o', fs', RInt 0).
Proof. exact @linear_point. Qed.
Print Assumptions C43_linear_point.
Theorem C43_all_linear : forall (T : Type) (OT : Ops T) (o0 : obj T) cs o fs fuel orc,
  is_object o0 -> reaches o0 cs o fs -> (forall g, In g (o_gps o) -> g_n g = None /\ below o g) ->
  exists o' r, step (Homogenize fuel orc) (o, fs) = Ok (o', fs, r) /\ w_u (o_work o') = w_u (o_work o) /\ w_vnew (o_work o') = w_vnew (o_work o).
Proof. exact @all_linear. Qed.
Print Assumptions C43_all_linear.

(** C44.  homogenize keeps ids, strains and the committed history; of all calls only
    update_vars changes that history. *)
Theorem C44_homogenize_keeps : forall (T : Type) (OT : Ops T) (o0 : obj T) cs o fs fuel orc o' fs' r,
  is_object o0 -> reaches o0 cs o fs -> step (Homogenize fuel orc) (o, fs) = Ok (o', fs', r) ->
  map g_id (o_gps o') = map g_id (o_gps o) /\
  forall id g, lookup id (o_gps o) = Some g -> exists g', lookup id (o_gps o') = Some g' /\ g_strain g' = g_strain g /\
    forall i, 0 <= i < nvars (o_env o) -> committed (o_env o) g' i = committed (o_env o) g i.
Proof. exact @homogenize_keeps. Qed.
Print Assumptions C44_homogenize_keeps.
Theorem C44_only_update_vars : forall (T : Type) (OT : Ops T) (o0 : obj T) cs o fs c o' fs' r id g g',
  is_object o0 -> reaches o0 cs o fs -> c <> UpdateVars -> step c (o, fs) = Ok (o', fs', r) ->
  lookup id (o_gps o) = Some g -> lookup id (o_gps o') = Some g' ->
  forall i, 0 <= i < nvars (o_env o) -> committed (o_env o) g' i = committed (o_env o) g i.
Proof. exact @committed_frame. Qed.
Print Assumptions C44_only_update_vars.

(** C45.  After homogenize, any further calls but homogenize, and update_vars, the committed
    variables are those computed for the strain of that homogenize when it flagged a
    non-linear response; otherwise they stay 0 for a point that never was non-linear, but
    for the others they are those of an earlier trial. *)
Theorem C45_commit_partial : forall (T : Type) (OT : Ops T) (o0 : obj T) cs o fs fuel orc o1 fs1 r1 bs o2 fs2 rs o3 fs3 r3 id g,
  is_object o0 -> reaches o0 cs o fs ->
  step (Homogenize fuel orc) (o, fs) = Ok (o1, fs1, r1) -> no_homogenize bs -> run bs (o1, fs1) = Ok (o2, fs2, rs) -> step UpdateVars (o2, fs2) = Ok (o3, fs3, r3) ->
  lookup id (o_gps o) = Some g -> exists g3, lookup id (o_gps o3) = Some g3 /\
    (g_n g = None -> below o g -> forall i, committed (o_env o) g3 i = Some (dec 0 1)) /\
    (g_n g <> None \/ ~ below o g -> exists w vo w' nl it er s j, wfull (o_env o) w /\
       (forall i, 0 <= i < nvars (o_env o) -> aget vo i = committed (o_env o) g i) /\
       respond fuel (orc j 0) (o_env o) (map (oval (g_strain g)) (zrange 0 (nvoi (o_env o)))) (set_vold w vo) = Ok (w', nl, it, er, s) /\
       (nl = true -> forall i, 0 <= i < nvars (o_env o) -> committed (o_env o) g3 i = aget (w_vnew w') i) /\
       (nl = false -> g_n g = None -> forall i, committed (o_env o) g3 i = Some (dec 0 1)) /\
       (nl = false -> g_n g <> None -> exists k, g_k g = Some k /\ forall i, 0 <= i < nvars (o_env o) -> committed (o_env o) g3 i = aget k i)).
Proof. exact @commit_last. Qed.
Print Assumptions C45_commit_partial.
(** Load, homogenize, unload, homogenize, update_vars: whatever the memory, the variables of
    the strain just homogenised are not the ones committed. *)
Theorem C45_commit_refuted : exists (o0 : obj R) cs o fs fuel orc o1 fs1 r1 o2 fs2 r2 id g g2 i, is_object o0 /\ reaches o0 cs o fs /\
  step (Homogenize fuel orc) (o, fs) = Ok (o1, fs1, r1) /\ step UpdateVars (o1, fs1) = Ok (o2, fs2, r2) /\
  lookup id (o_gps o) = Some g /\ lookup id (o_gps o2) = Some g2 /\ (0 <= i < nvars (o_env o))%Z /\
  forall f pk w vo w' nl it er s, wfull (o_env o) w -> full vo (nvars (o_env o)) ->
    (forall k, (0 <= k < nvars (o_env o))%Z -> aget vo k = committed (o_env o) g k) ->
    respond f pk (o_env o) (map (oval (g_strain g)) (zrange 0 (nvoi (o_env o)))) (set_vold w vo) = Ok (w', nl, it, er, s) ->
    aget (w_vnew w') i <> committed (o_env o) g2 i.
Proof. exact stale_commit. Qed.
Print Assumptions C45_commit_refuted.

(** C46.  update_vars always succeeds, copies the trial variables of the points that have some,
    is idempotent, and changes nothing else. *)
Theorem C46_update_commits : forall (T : Type) (OT : Ops T) (o0 : obj T) cs o fs o' fs' r id g,
  is_object o0 -> reaches o0 cs o fs -> step UpdateVars (o, fs) = Ok (o', fs', r) ->
  lookup id (o_gps o) = Some g -> exists g', lookup id (o_gps o') = Some g' /\
    match g_n g, g_k g with
    | Some _, Some k => forall i, 0 <= i < nvars (o_env o) -> committed (o_env o) g' i = aget k i
    | _, _ => g_n g' = None /\ g_n g = None /\ g_k g = None
    end.
Proof. exact @update_commits. Qed.
Print Assumptions C46_update_commits.
Theorem C46_update_idempotent : forall (T : Type) (OT : Ops T) (o0 : obj T) cs o fs o' fs' r,
  is_object o0 -> reaches o0 cs o fs -> step UpdateVars (o, fs) = Ok (o', fs', r) ->
  step UpdateVars (o', fs') = Ok (o', fs', r) /\ fs' = fs.
Proof. exact @update_idem. Qed.
Print Assumptions C46_update_idempotent.
Theorem C46_update_frame : forall (T : Type) (OT : Ops T) (o0 : obj T) cs o fs,
  is_object o0 -> reaches o0 cs o fs ->
  exists o', step UpdateVars (o, fs) = Ok (o', fs, RUnit) /\ o_work o' = o_work o /\ o_ctan o' = o_ctan o /\
  map g_id (o_gps o') = map g_id (o_gps o) /\
  forall id g, lookup id (o_gps o) = Some g -> exists g', lookup id (o_gps o') = Some g' /\
    g_strain g' = g_strain g /\ g_stress g' = g_stress g /\ g_ctan g' = g_ctan g /\ g_its g' = g_its g /\ g_err g' = g_err g /\
    g_k g' = g_k g /\ get_nl_flag id (o_gps o') = get_nl_flag id (o_gps o).
Proof. exact @update_frame. Qed.
Print Assumptions C46_update_frame.

(** C47.  The flag never goes back, and a flagged point is solved at every homogenize: its
    stress is the one of a Newton solve for its strain from its committed variables, and
    its tangent comes from one solve per strain component. *)
Theorem C47_flag_permanent : forall (T : Type) (OT : Ops T) (o0 : obj T) cs1 cs2 o1 fs1 o2 fs2 id,
  is_object o0 -> reaches o0 cs1 o1 fs1 -> (exists rs, run cs2 (o1, fs1) = Ok (o2, fs2, rs)) ->
  get_nl_flag id (o_gps o1) = 1 -> get_nl_flag id (o_gps o2) = 1.
Proof. exact @flag_permanent. Qed.
Print Assumptions C47_flag_permanent.
Theorem C47_point_solved : forall (T : Type) (OT : Ops T) (o0 : obj T) cs o fs fuel orc o' fs' r id g,
  is_object o0 -> reaches o0 cs o fs -> step (Homogenize fuel orc) (o, fs) = Ok (o', fs', r) ->
  lookup id (o_gps o) = Some g -> g_n g <> None \/ ~ below o g ->
  exists g' w j, lookup id (o_gps o') = Some g' /\ wfull (o_env o) w /\ solved (o_env o) fuel (orc j) w g g'.
Proof. exact @point_solved. Qed.
Print Assumptions C47_point_solved.

(** C48.  micro_params[4] is stored and never used ... *)
Theorem C48_parameter_ignored : forall (T : Type) (OT : Ops T) (a b c d x y : T) r fuel orc j dim size mtype mt ps,
  construct fuel orc j dim size mtype (a :: b :: c :: d :: y :: r) mt ps =
  (o <- construct fuel orc j dim size mtype (a :: b :: c :: d :: x :: r) mt ps ;;
   Ok (mkObj (o_env o) (o_work o) [a; b; c; d; y] (o_ctan o) (o_gps o) (o_estrain o) (o_estress o) (o_inv_max o) (o_header o))).
Proof. exact @threshold_ignored. Qed.
Print Assumptions C48_parameter_ignored.
(** ... the decision depends on memory the constructor never wrote. *)
Theorem C48_threshold_refuted : exists dim nx ny nz mtype mp mt ps fuel orc (j1 j2 : junk R) o1 o2 cs o1' fs1 o2' fs2 id,
  valid_args dim nx ny nz mtype mp mt ps /\
  total_junk j1 /\ total_junk j2 /\ (forall z, orc z = counting) /\
  construct fuel orc j1 dim [nx; ny; nz] mtype mp mt ps = Ok o1 /\ construct fuel orc j2 dim [nx; ny; nz] mtype mp mt ps = Ok o2 /\
  reaches o1 cs o1' fs1 /\ reaches o2 cs o2' fs2 /\ get_nl_flag id (o_gps o1') = 0%Z /\ get_nl_flag id (o_gps o2') = 1%Z.
Proof. exact junk_threshold. Qed.
Print Assumptions C48_threshold_refuted.

(** C49.  A strain on the linear path whose response yields: the trace of the predicted stress
    is below the threshold, the solve from the committed variables flags plastic flow in
    any memory, and its shear stress is not the reported one. *)
Theorem C49_shortcut_refuted : exists (o0 : obj R) cs o fs id g, is_object o0 /\ reaches o0 cs o fs /\ lookup id (o_gps o) = Some g /\ g_n g = None /\ below o g /\
  (forall f pk w vo, (1 <= f)%nat -> wfull (o_env o) w -> full vo (nvars (o_env o)) -> (forall k, (0 <= k < nvars (o_env o))%Z -> aget vo k = committed (o_env o) g k) ->
    exists w' s, respond f pk (o_env o) (map (oval (g_strain g)) (zrange 0 (nvoi (o_env o)))) (set_vold w vo) = Ok (w', true, 0%Z, 0%R, s) /\
      lget s 3 <> predicted o g 3).
Proof. exact wrong_shortcut. Qed.
Print Assumptions C49_shortcut_refuted.

(** C52.  Same arguments, same threshold: two different tangents. *)
Theorem C52_tangent_refuted : exists dim nx ny nz mtype mp mt ps fuel orc (j1 j2 : junk R) o1 o2 k, valid_args dim nx ny nz mtype mp mt ps /\
  total_junk j1 /\ total_junk j2 /\ j_tol j1 = j_tol j2 /\ (forall z, orc z = counting) /\
  construct fuel orc j1 dim [nx; ny; nz] mtype mp mt ps = Ok o1 /\ construct fuel orc j2 dim [nx; ny; nz] mtype mp mt ps = Ok o2 /\
  (0 <= k < nvoi (o_env o1) * nvoi (o_env o1))%Z /\ aget (o_ctan o1) k <> aget (o_ctan o2) k.
Proof. exact junk_tangent. Qed.
Print Assumptions C52_tangent_refuted.

(** C56.  Writing files changes no Gauss point. *)
Theorem C56_output_keeps : forall (T : Type) (OT : Ops T) (o0 : obj T) cs o fs c o' fs' r,
  is_object o0 -> reaches o0 cs o fs -> (c = WriteInfo \/ exists fuel pk t id, c = Output fuel pk t id) -> step c (o, fs) = Ok (o', fs', r) ->
  o_gps o' = o_gps o /\ o_env o' = o_env o /\ o_ctan o' = o_ctan o.
Proof. exact @output_keeps. Qed.
Print Assumptions C56_output_keeps.

(** C68.  The only ways a call sequence can fail: a strain array that is too short, results of a
    point never homogenised, write_info_files in 2D or before homogenize, and the stray
    read or endless loop of newton_raphson. *)
Theorem C68_safe_calls : forall (T : Type) (OT : Ops T) (o0 : obj T) fs0 cs e,
  is_object o0 -> run cs (o0, fs0) = Err e ->
  exists a c b, cs = a ++ c :: b /\
  match c with
  | SetStrain id eps => e = OOB /\ Z.of_nat (length eps) < nvoi (o_env o0)
  | GetStress id | GetCtan id => e = Uninit /\ In id (set_ids a) /\ ~ homogenised id a
  | NlFlag _ | UpdateVars => False
  | Homogenize fuel orc => exists j i, nbad fuel (orc j i) e
  | Output fuel pk _ id => nbad fuel pk e /\ In id (set_ids a)
  | WriteInfo => e = Uninit /\ exists id, In id (set_ids a) /\ (v_dim (o_env o0) = 2 \/ ~ homogenised id a)
  end.
Proof. exact @safe. Qed.
Print Assumptions C68_safe_calls.
