(** C77: the invariant written to the convergence log is the one homogenize decided with. *)
From Coq Require Import Reals.
From Verif Require Import Base Scalar EllModel AssemblyModel MicroModel OutputModel ApiBase ApiRun ApiHist Build ApiSpec ApiProps ApiCases ApiCommit InvProps.
Open Scope Z_scope.
Open Scope R_scope.

Example C77_example : forall tol : R, exists o0 o fs o' fs' r o2 fs2 rs g, is_object o0 /\ env_of 3 4 5 3 0 mp5 [1; 2]%Z ps20 tol (o_env o0) /\ reaches o0 story o fs /\
  step hom (o, fs) = Ok (o', fs', r) /\ no_homogenize [UpdateVars (T := R); NlFlag 7] /\ run [UpdateVars; NlFlag 7] (o', fs') = Ok (o2, fs2, rs) /\ lookup 7 (o_gps o) = Some g.
Proof. exact inv_ex. Qed.

(** C77.  After homogenize, and any further calls but homogenize, the value that the next
    write_info_files prints for a point (conv_group of C57) is the absolute trace of the stress that the
    linear tangent predicts for the strain it had at that homogenize. *)
Theorem C77_recorded : forall (o0 : obj R) cs o fs fuel orc o' fs' r bs o2 fs2 rs id g, is_object o0 -> reaches o0 cs o fs ->
  step (Homogenize fuel orc) (o, fs) = Ok (o', fs', r) -> no_homogenize bs -> run bs (o', fs') = Ok (o2, fs2, rs) ->
  lookup id (o_gps o) = Some g ->
  exists g2, lookup id (o_gps o2) = Some g2 /\ g_inv g2 = Rabs (predicted_trace o g).
Proof. exact recorded. Qed.
Print Assumptions C77_recorded.
(** The linear shortcut was open exactly when that value is below the threshold. *)
Theorem C77_decided : forall (o0 : obj R) cs o fs fuel orc o' fs' r id g, is_object o0 -> reaches o0 cs o fs ->
  step (Homogenize fuel orc) (o, fs) = Ok (o', fs', r) -> lookup id (o_gps o) = Some g ->
  exists g', lookup id (o_gps o') = Some g' /\ (below o g <-> g_inv g' < v_inv_tol (o_env o)).
Proof. exact decided. Qed.
Print Assumptions C77_decided.
