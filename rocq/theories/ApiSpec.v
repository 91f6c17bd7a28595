(** Vocabulary of the properties of the object and its call sequences (C38-C47, C50,
    C56, C65-C68), for every arithmetic.  set_ids, first_use, last_set and homogenised are in
    ApiHist.v, valid_args, total_junk and env_of in Build.v. *)
From Verif Require Import Base Scalar EllSpec EllModel AssemblyModel MicroModel OutputModel NewtonBase ApiBase ApiRun ApiHist Build.

Section Spec.
Context {T : Type} `{OT : Ops T}.

(** an object returned by the constructor, from valid arguments, whatever the content of
    fresh memory and whatever the stray reads of the Newton loop gave *)
Definition is_object (o : obj T) : Prop :=
  exists dim nx ny nz mtype mp mt ps fuel orc j, valid_args dim nx ny nz mtype mp mt ps /\ total_junk j /\
    construct fuel orc j dim [nx; ny; nz] mtype mp mt ps = Ok o.
(** the calls cs on o0 completed, leaving o and the files fs *)
Definition reaches (o0 : obj T) (cs : list (call T)) (o : obj T) (fs : files T) : Prop :=
  exists fs0 rs, run cs (o0, fs0) = Ok (o, fs, rs).

Definition entries (a : arr T) (n : Z) : list (option T) := map (aget a) (zrange 0 n).
(** the stored strain is the caller's *)
Definition stored (V : env T) (g : gp T) (eps : list T) : Prop :=
  entries (g_strain g) (nvoi V) = map (fun i => Some (lget eps i)) (zrange 0 (nvoi V)).
(** row i of ctan_lin times the stored strain, summed from the left *)
Definition predicted (o : obj T) (g : gp T) (i : Z) : T :=
  sumf (zrange 0 (nvoi (o_env o))) (fun j => omul (oval (o_ctan o) (i * nvoi (o_env o) + j)) (oval (g_strain g) j)).
(** the trace of the predicted stress *)
Definition predicted_trace (o : obj T) (g : gp T) : T :=
  if v_dim (o_env o) =? 2 then oadd (predicted o g 0) (predicted o g 1)
  else oadd (oadd (predicted o g 0) (predicted o g 1)) (predicted o g 2).
(** the condition of the shortcut *)
Definition below (o : obj T) (g : gp T) : Prop :=
  oltb (oabs (predicted_trace o g)) (v_inv_tol (o_env o)) = true.
(** the intended loop counter *)
Definition counting : peek := fun k => Ok k.
End Spec.
