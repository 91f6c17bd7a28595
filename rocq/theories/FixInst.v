(** A computable arithmetic: binary fixed point with 100 fractional bits.  Used to run
    the model on concrete inputs; not a model of double. *)
From Verif Require Import Base Scalar EllSpec EllModel AssemblyModel MicroModel OutputModel.

Inductive fx := Fx (z : Z).
Definition raw (x : fx) : Z := let '(Fx z) := x in z.
Definition one_bits : Z := 100.
#[global] Instance FxOps : Ops fx := {
  ofZ z := Fx (Z.shiftl z one_bits);
  oadd x y := Fx (raw x + raw y);
  osub x y := Fx (raw x - raw y);
  omul x y := Fx (Z.shiftr (raw x * raw y) one_bits);
  odiv x y := Fx (Z.shiftl (raw x) one_bits / raw y);
  oopp x := Fx (- raw x);
  osqrt x := Fx (Z.sqrt (Z.shiftl (raw x) one_bits));
  oabs x := Fx (Z.abs (raw x));
  oltb x y := raw x <? raw y }.

(** millionths, rounded down *)
Definition micro (x : fx) : Z := Z.shiftr (raw x * 10 ^ 6) one_bits.
Definition fd (m e : Z) : fx := dec m e.

(** a microstructure: the arguments of a 3D body with [n] nodes per edge, unit size,
    a sphere of the second material *)
Definition ex_mp : list fx := [ofZ 1; ofZ 1; ofZ 1; fd 5 1; fd 1 5].
Definition ex_ps : list fx :=
  [ofZ 100; fd 3 1; ofZ 1; ofZ 5; ofZ 0; ofZ 0; ofZ 0; ofZ 0; ofZ 0; ofZ 0;
   ofZ 200; fd 3 1; fd 1 2; ofZ 5; ofZ 0; ofZ 0; ofZ 0; ofZ 0; ofZ 0; ofZ 0].
Definition ex_junk : junk fx := mkJunk (fun _ => Some (ofZ 0)) (fun _ => Some (ofZ 0)) (fun _ => Some (ofZ 0)) (Some (fd 1 5)).
Definition ex_obj (n : Z) (mt : list Z) : res (obj fx) :=
  construct 50 (fun _ k => Ok k) ex_junk 3 [n; n; n] 0 ex_mp mt ex_ps.
Definition strain_x (m e : Z) : list fx := [fd m e; ofZ 0; ofZ 0; ofZ 0; ofZ 0; ofZ 0].
