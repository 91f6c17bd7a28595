(** C52, C74, C75: NaN in objects computed with IEEE 754 doubles (FloatInst.v; arrays of double
    are lists and maps of spec_float, NaN is S754_nan).  C74 and the general half of C75 hold
    whatever the stray reads of the Newton loop give and for any number of nodes. *)
From Coq Require Import Floats.SpecFloat.
From Verif Require Import Base Scalar EllSpec EllModel Grid AssemblyModel MicroModel OutputModel NewtonBase ApiBase ApiRun ApiHist Build ApiSpec ApiCases FloatInst NanRun NanProps NanEx.
Open Scope Z_scope.

(** The hypotheses of C74 and C75 hold on a cube of 4 x 3 x 5 nodes for five calls, one of them
    with a NaN strain for id 1, homogenised and then replaced by zeros: *)
Example C74_example : exists (o0 : obj double) o fs o' fs' r, is_object o0 /\ v_dim (o_env o0) = 3 /\ v_nx (o_env o0) = 4 /\ v_ny (o_env o0) = 3 /\ v_nz (o_env o0) = 5 /\
  last_set 1 nan_strain [SetStrain 2 no_strain; SetStrain 1 nan_strain] /\ lget nan_strain 0 = NaN /\
  reaches o0 nan_story o fs /\ step hom_f (o, fs) = Ok (o', fs', r) /\ (exists g1 g2, lookup 1 (o_gps o) = Some g1 /\ lookup 2 (o_gps o) = Some g2 /\ ~ below o g1 /\ ~ below o g2).
Proof. exact nan_story_ok. Qed.
Example C74_example_calls : nan_story = [SetStrain 2 no_strain; SetStrain 1 nan_strain] ++ hom_f :: [UpdateVars; SetStrain 1 no_strain].
Proof. exact eq_refl. Qed.
Example C52_nan_example : exists fuel orc (o0 : obj double) o fs, total_junk bad_memory /\ valid_args 2 3 3 1 1 mp_f [0; 0] ps_f /\
  construct fuel orc bad_memory 2 [3; 3; 1] 1 mp_f [0; 0] ps_f = Ok o0 /\ inner_dof 2 3 3 1 8 /\ j_u bad_memory 8 = Some NaN /\ reaches o0 ([SetStrain 2 no_strain] ++ [hom_f]) o fs.
Proof. exact bad_memory_ok. Qed.

(** C74.  If a component of the last strain set for an id is NaN, then after the next homogenize
    every component of its stress and of its tangent is NaN. *)
Theorem C74_nan_answer : forall (o0 : obj double) cs o fs f orc id eps k, is_object o0 ->
  reaches o0 (cs ++ [Homogenize f orc]) o fs -> last_set id eps cs -> 0 <= k < nvoi (o_env o0) -> lget eps k = NaN ->
  step (GetStress id) (o, fs) = Ok (o, fs, RBuf (Some (repeat NaN (Z.to_nat (nvoi (o_env o)))))) /\
  step (GetCtan id) (o, fs) = Ok (o, fs, RBuf (Some (repeat NaN (Z.to_nat (nvoi (o_env o) * nvoi (o_env o)))))).
Proof. exact nan_answer. Qed.
Print Assumptions C74_nan_answer.

(** C75.  Two sequences of calls on the same object which differ by a NaN strain for id 1: without
    it the stress of id 2 has no NaN, with it every component is NaN. *)
Theorem C75_independent_of_nan_refuted : exists o0 : obj double, is_object o0 /\
  (exists o fs l, run [SetStrain 2 no_strain; hom_f; GetStress 2] (o0, no_files) = Ok (o, fs, [RUnit; RUnit; RBuf (Some l)]) /\ ~ In NaN l) /\
  (exists o fs, run [SetStrain 1 nan_strain; hom_f; SetStrain 2 no_strain; hom_f; GetStress 2] (o0, no_files) =
     Ok (o, fs, [RUnit; RUnit; RUnit; RUnit; RBuf (Some [NaN; NaN; NaN])])).
Proof. exact spreads_ex. Qed.
Print Assumptions C75_independent_of_nan_refuted.
(** In general: once a NaN strain has been homogenised in an object with a node inside, every later
    homogenize answers NaN for every id which does not take the linear shortcut, whatever was
    called in between and also for ids whose own strain has no NaN. *)
Theorem C75_nan_for_ever : forall (o0 : obj double) cs1 f1 orc1 cs2 o fs f orc o' fs' r id0 eps k, is_object o0 ->
  3 <= v_nx (o_env o0) -> 3 <= v_ny (o_env o0) -> (v_dim (o_env o0) = 3 -> 3 <= v_nz (o_env o0)) ->
  last_set id0 eps cs1 -> 0 <= k < nvoi (o_env o0) -> lget eps k = NaN ->
  reaches o0 (cs1 ++ Homogenize f1 orc1 :: cs2) o fs -> step (Homogenize f orc) (o, fs) = Ok (o', fs', r) ->
  forall id g, lookup id (o_gps o) = Some g -> ~ (below o g /\ g_n g = None) ->
  step (GetStress id) (o', fs') = Ok (o', fs', RBuf (Some (repeat NaN (Z.to_nat (nvoi (o_env o')))))) /\
  step (GetCtan id) (o', fs') = Ok (o', fs', RBuf (Some (repeat NaN (Z.to_nat (nvoi (o_env o') * nvoi (o_env o')))))).
Proof. exact nan_spreads. Qed.
Print Assumptions C75_nan_for_ever.

(** C52.  A NaN in the fresh memory of the displacements, at a node inside, makes every entry of the
    linear tangent NaN and every answer after a homogenize, for the life of the object. *)
Theorem C52_nan_memory_refuted : forall fuel orc (j : junk double) dim nx ny nz mtype mp mt ps o0 a, valid_args dim nx ny nz mtype mp mt ps -> total_junk j ->
  construct fuel orc j dim [nx; ny; nz] mtype mp mt ps = Ok o0 -> inner_dof dim nx ny nz a -> j_u j a = Some NaN ->
  (forall i, 0 <= i < nvoi (o_env o0) * nvoi (o_env o0) -> aget (o_ctan o0) i = Some NaN) /\
  forall cs f q o fs id, reaches o0 (cs ++ [Homogenize f q]) o fs -> In id (set_ids cs) ->
  step (GetStress id) (o, fs) = Ok (o, fs, RBuf (Some (repeat NaN (Z.to_nat (nvoi (o_env o)))))) /\
  step (GetCtan id) (o, fs) = Ok (o, fs, RBuf (Some (repeat NaN (Z.to_nat (nvoi (o_env o) * nvoi (o_env o)))))).
Proof. exact nan_memory. Qed.
Print Assumptions C52_nan_memory_refuted.
