(** Numbering macros of /repo and counts of entities. *)
From Verif Require Import Base EllSpec EllInit.

(** include/micro.hpp:37 (glo_elem3D); src/assembly.cpp uses it with ez = 0 in 2D *)
Definition glo_elem3D (nx ny ex ey ez : Z) : Z := ez * (nx - 1) * (ny - 1) + ey * (nx - 1) + ex.
(** include/micro.hpp:38 (intvar_ix), with INT_VARS_GP = 7 (include/micro.hpp:34) *)
Definition intvar_ix (e gp var : Z) : Z := e * 8 * 7 + gp * 7 + var.
(** src/micro.cpp:49 *)
Definition nelem (dim nx ny nz : Z) : Z :=
  if dim =? 2 then (nx - 1) * (ny - 1) else (nx - 1) * (ny - 1) * (nz - 1).
(** src/micro.cpp:52, NUM_VAR_GP = 7 (include/micro.hpp:35) *)
Definition num_int_vars (dim nx ny nz : Z) : Z := nelem dim nx ny nz * 8 * 7.

Lemma glo_elem_node nx ny ex ey ez :
  glo_elem3D nx ny ex ey ez = node (nx - 1) (ny - 1) ex ey ez.
Proof. unfold glo_elem3D, node. ring. Qed.

Lemma intvar_range e g v N : 0 <= e < N -> 0 <= g < 8 -> 0 <= v < 7 ->
  0 <= intvar_ix e g v < N * 8 * 7.
Proof. unfold intvar_ix. nia. Qed.

Lemma intvar_inj e g v e' g' v' : 0 <= g < 8 -> 0 <= v < 7 -> 0 <= g' < 8 -> 0 <= v' < 7 ->
  intvar_ix e g v = intvar_ix e' g' v' -> e = e' /\ g = g' /\ v = v'.
Proof. unfold intvar_ix. lia. Qed.

Lemma intvar_surj a N : 0 <= a < N * 8 * 7 ->
  exists e g v, 0 <= e < N /\ 0 <= g < 8 /\ 0 <= v < 7 /\ intvar_ix e g v = a.
Proof.
  intros H. exists (a / 56), ((a mod 56) / 7), (a mod 7). unfold intvar_ix.
  assert (E : a mod 7 = (a mod 56) mod 7) by (rewrite <- Znumtheory.Zmod_div_mod; [reflexivity|lia|lia|exists 8; lia]).
  rewrite E. Z.div_mod_to_equations. lia.
Qed.
