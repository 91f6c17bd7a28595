(** The hypotheses of the quadrature theorems hold on the composites of AsmCases. *)
From Coq Require Import Reals Lra ZifyBool.
From Verif Require Import Base Scalar EllSpec EllInit EllModel Grid EllAsm CgPure CgProps AssemblyModel AsmPure FemGen FemAve FemPd FemRhs AsmSpec AsmProps AsmEx AsmCases Quad.
Open Scope Z_scope.
Open Scope R_scope.

Lemma quad_ex3 : body3 blend3 /\ is_cell3 blend3 1 2 1 /\ plastic_at blend3 (cellno blend3 1 2 1) = false /\
  admissible (mat_at blend3 (cellno blend3 1 2 1)) /\
  exists u vold vnew D, full u (ndofs blend3) /\ vars_ok blend3 vold vnew /\
    gradient3 (inside3 blend3 u 1 2 1) D /\ D 0%Z 0%Z 0 0 0 <> 0.
Proof.
  destruct composite3 as (B & L & A & _ & _ & _ & _ & _ & vold & vnew & _ & _ & _ & _ & _ & W & _).
  assert (C : is_cell3 blend3 1 2 1) by (unfold is_cell3; cbn; lia).
  assert (N : (0 <= cellno blend3 1 2 1 < ncells blend3)%Z) by (cbv; split; congruence).
  split; [exact B|]. split; [exact C|]. split; [now apply L|]. split; [now apply A|].
  set (u := fun_arr (ndofs blend3) (fun i => IZR i)).
  pose proof (fun_arr_rep (ndofs blend3) (fun i => IZR i)) as U. fold u in U.
  destruct (has_gradient3 blend3 u 1 2 1) as (D & HD).
  exists u, vold, vnew, D. split; [exact (rep_full _ _ _ U)|]. split; [exact W|]. split; [exact HD|].
  destruct (HD 0%Z 0 0 0 ltac:(lia)) as (H0 & _ & _).
  rewrite (isa_slope _ _ _ (interp3_x blend3 (fun n => val u (cdof3 blend3 1 2 1 n 0)) 0 0) H0).
  assert (X : forall n, (0 <= n < 8)%Z -> val u (cdof3 blend3 1 2 1 n 0) = IZR (cdof3 blend3 1 2 1 n 0)).
  { intros n Hn. apply (rep_val u (ndofs blend3) (fun i => IZR i) _ U).
    assert (Q : forallb (fun n => (0 <=? cdof3 blend3 1 2 1 n 0) && (cdof3 blend3 1 2 1 n 0 <? ndofs blend3))%Z (zrange 0 8) = true) by (vm_compute; reflexivity).
    rewrite forallb_forall in Q. specialize (Q n ltac:(now apply in_zrange)). lia. }
  unfold interp3. rewrite !zr8. cbn [rsum]. rewrite !X by lia.
  change (v_dx blend3) with (1 / 3). change (v_dy blend3) with (2 / 4). change (v_dz blend3) with (3 / 2).
  repeat match goal with |- context [cdof3 blend3 ?a ?b ?c ?d ?e] => let r := eval vm_compute in (cdof3 blend3 a b c d e) in change (cdof3 blend3 a b c d e) with r end.
  unfold hat. cors. cbn [Z.eqb Pos.eqb]. lra.
Qed.
Lemma quad_ex2 : body2 blend2 /\ is_cell2 blend2 1 2 /\ admissible (mat_at blend2 (cellno blend2 1 2 0)) /\
  exists w D, full w (ndofs blend2) /\ gradient2 (inside2 blend2 w 1 2) D.
Proof.
  destruct composite2 as (B & A & _).
  assert (C : is_cell2 blend2 1 2) by (unfold is_cell2; cbn; lia).
  assert (N : (0 <= cellno blend2 1 2 0 < ncells blend2)%Z) by (cbv; split; congruence).
  split; [exact B|]. split; [exact C|]. split; [now apply A|].
  pose proof (fun_arr_rep (ndofs blend2) (fun i => IZR i)) as U.
  destruct (has_gradient2 blend2 (fun_arr (ndofs blend2) (fun i => IZR i)) 1 2) as (D & HD).
  exists (fun_arr (ndofs blend2) (fun i => IZR i)), D. split; [exact (rep_full _ _ _ U)|exact HD].
Qed.
