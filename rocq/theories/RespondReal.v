(** What a response reports, in exact arithmetic: the stress of a state whose residual is
    the reported error. *)
From Coq Require Import Reals Lra.
From Verif Require Import Base Scalar EllSpec EllInit EllModel EllFinal Grid CgPure CgFinal CgProps AssemblyModel AsmPure AsmBnd AsmRun FemGen FemAve AsmMat FemMat FemMat2 FemDef FemPd FemRhs FemEquil
  AsmSpec AsmProps AsmEquil AsmPoint AsmEx PlastRef AsmCases MicroModel NewtonBase ApiBase NewtonReal.
Open Scope Z_scope.
Open Scope R_scope.

(** the three parts of a response *)
Lemma respond_parts V fuel pk eps (w w' : work R) nl it er s : respond fuel pk V eps w = Ok (w', nl, it, er, s) ->
  exists u w1 vn, set_displ V eps (w_u w) = Ok u /\ newton fuel pk V (set_u w u) = Ok (w1, nl, it, er) /\
    calc_ave_stress V (w_u w1) (w_vold w1) (w_vnew w1) = Ok (s, vn) /\ w' = set_vnew w1 vn.
Proof.
  intros E. unfold respond in E. destruct (set_displ V eps (w_u w)) as [u|]; cbn [bind] in E; [|discriminate].
  destruct (newton fuel pk V (set_u w u)) as [(((w1, nl1), it1), er1)|] eqn:En; cbn [bind] in E; [|discriminate].
  destruct (calc_ave_stress V (w_u w1) (w_vold w1) (w_vnew w1)) as [(s1, vn)|] eqn:Es; cbn [bind fst snd] in E; [|discriminate].
  injection E as <- <- <- <- <-. exists u, w1, vn. auto.
Qed.
(** boundary values of the field *)
Lemma respond_bnd3 V u u' e : body3 V -> full u' (ndofs V) -> same_bnd V u u' -> affine_bnd3 V e u -> affine_bnd3 V e u'.
Proof.
  intros (S & G & D) F Sb A i j k Hn Hf x y z. destruct (A i j k Hn Hf) as (A0 & A1 & A2).
  assert (B : forall c, (0 <= c < 3)%Z -> aget u' (dof3 V i j k c) = aget u (dof3 V i j k c)).
  { intros c Hc. apply Sb; [now apply dof3_range|]. now apply bnd_dof3. }
  rewrite !B by lia. auto.
Qed.
Lemma respond_bnd2 V u u' e : body2 V -> full u' (ndofs V) -> same_bnd V u u' -> affine_bnd2 V e u -> affine_bnd2 V e u'.
Proof.
  intros (S & G & D) F Sb A i j Hn Hf x y. destruct (A i j Hn Hf) as (A0 & A1).
  assert (B : forall c, (0 <= c < 2)%Z -> aget u' (dof2 V i j c) = aget u (dof2 V i j c)).
  { intros c Hc. apply Sb; [now apply dof2_range|]. now apply bnd_dof2. }
  rewrite !B by lia. auto.
Qed.
(** the reported stress does not depend on the trial buffer *)
Lemma ave_any3 V u vold vn vn2 s v : body3 V -> full u (ndofs V) -> vars_ok V vold vn -> alen vn2 = alen vn ->
  calc_ave_stress V u vold vn = Ok (s, v) -> exists v2, calc_ave_stress V u vold vn2 = Ok (s, v2).
Proof.
  intros B F W L E. destruct (writes_spec V u vold vn B F W) as (s1 & v1 & E1 & _ & _ & H). rewrite E in E1. injection E1 as <- <-.
  destruct (H vn2 L) as (v2 & E2 & _). eauto.
Qed.

Theorem respond_state3 V fuel pk eps w w' nl it er s : body3 V -> wok V w -> respond fuel pk V eps w = Ok (w', nl, it, er, s) -> er < 1 / 100000 ->
  exists b', state3 V eps (w_u w') (w_vold w) b' er s.
Proof.
  intros B K E He. pose proof B as (S & G & D). destruct (respond_parts _ _ _ _ _ _ _ _ _ _ E) as (u & w1 & vn & Eu & En & Es & ->).
  destruct (displ_ok V eps (w_u w) S (wk_u _ _ K)) as (u2 & Eu2 & Fu). rewrite Eu in Eu2. injection Eu2 as <-.
  assert (K1 : wok V (set_u w u)) by (destruct K; constructor; assumption).
  destruct (newton_real V fuel pk (set_u w u) w1 nl it er S G K1 En) as (Sb & O1 & K2 & _ & n & w0 & _ & K0 & O0 & H & _). destruct (H He) as (U0 & Er).
  cbn [set_u w_u w_vold] in Sb, O1, O0, Er. destruct (displ3_spec V eps (w_u w) B (proj1 (wk_u _ _ K))) as (u3 & Eu3 & _ & A & _). rewrite Eu in Eu3. injection Eu3 as <-.
  exists (w_b w1). cbn [set_vnew w_u]. rewrite O1 in Es.
  pose proof (wok_vars3 V w0 D K0) as W0. rewrite O0 in W0. pose proof (wok_vars3 V w1 D K2) as W1. rewrite O1 in W1.
  destruct (ave_any3 V (w_u w1) (w_vold w) (w_vnew w1) (w_vnew w0) s vn B (wk_u _ _ K2) W1) as (v2 & E2); [rewrite (proj2 W0), (proj2 W1); reflexivity|exact Es|].
  exists (w_vnew w0), (w_b w0), nl, (w_vnew w1), v2. split; [exact (wk_u _ _ K2)|]. split; [exact W0|]. split; [exact (wk_b _ _ K0)|].
  split; [exact (respond_bnd3 V u (w_u w1) eps B (wk_u _ _ K2) Sb A)|]. split; [exact Er|exact E2].
Qed.
Theorem respond_state2 V fuel pk eps w w' nl it er s : body2 V -> wok V w -> respond fuel pk V eps w = Ok (w', nl, it, er, s) -> er < 1 / 100000 ->
  exists b', state2 V eps (w_u w') b' er s.
Proof.
  intros B K E He. pose proof B as (S & G & D). destruct (respond_parts _ _ _ _ _ _ _ _ _ _ E) as (u & w1 & vn & Eu & En & Es & ->).
  destruct (displ_ok V eps (w_u w) S (wk_u _ _ K)) as (u2 & Eu2 & Fu). rewrite Eu in Eu2. injection Eu2 as <-.
  assert (K1 : wok V (set_u w u)) by (destruct K; constructor; assumption).
  destruct (newton_real V fuel pk (set_u w u) w1 nl it er S G K1 En) as (Sb & O1 & K2 & _ & n & w0 & _ & K0 & O0 & H & _). destruct (H He) as (U0 & Er).
  cbn [set_u w_u w_vold] in Sb, O1, O0, Er. destruct (displ2_spec V eps (w_u w) B (proj1 (wk_u _ _ K))) as (u3 & Eu3 & _ & A & _). rewrite Eu in Eu3. injection Eu3 as <-.
  exists (w_b w1). cbn [set_vnew w_u]. rewrite O1 in Es.
  pose proof (full_rep _ _ (wk_u _ _ K2)) as U1. rewrite (ndofs2 V S D) in U1.
  exists (w_vold w), (w_vnew w0), (w_b w0), nl, (w_vnew w1), (w_vnew w0). split; [exact (wk_u _ _ K2)|]. split; [exact (wk_b _ _ K0)|].
  split; [exact (respond_bnd2 V u (w_u w1) eps B (wk_u _ _ K2) Sb A)|]. split; [exact Er|].
  rewrite (ave_stress2_ok V _ S _ _ _ D U1) in Es. rewrite (ave_stress2_ok V _ S _ _ _ D U1). injection Es as <- _. reflexivity.
Qed.

(** ** Linear bodies of fewer than 2000 unknowns *)
Theorem respond_linear3 V fuel pk eps w i : body3 V -> linear V -> adm V -> wok V w -> (ndofs V < 2000)%Z -> (2 <= fuel)%nat -> pk 1%Z = Ok i -> (i < 40)%Z ->
  exists w' er s b' n, respond fuel pk V eps w = Ok (w', false, 0%Z, er, s) /\ er <= 1 / 100000 /\ state3 V eps (w_u w') (w_vold w) b' n s /\ n < 1 / 100000.
Proof.
  intros B L A K Hn Hf Ep Hi. pose proof B as (S & G & D). unfold respond.
  destruct (displ3_spec V eps (w_u w) B (proj1 (wk_u _ _ K))) as (u & Eu & _ & Af & _). rewrite Eu. cbn [bind].
  destruct (displ_ok V eps (w_u w) S (wk_u _ _ K)) as (u2 & Eu2 & Fu). rewrite Eu in Eu2. injection Eu2 as <-.
  assert (K1 : wok V (set_u w u)) by (destruct K; constructor; assumption).
  destruct (linear_newton V fuel pk (set_u w u) i ltac:(split; [exact S|split; [exact G|split; [exact A|intros _; exact L]]]) K1 Hn Hf Ep Hi) as (w1 & er & m & w0 & En & He & (vn & b & b' & nl & vn' & n & Lv & Lb & Er & Hn') & _).
  rewrite En. cbn [bind]. destruct (newton_real V fuel pk (set_u w u) w1 false 0%Z er S G K1 En) as (Sb & O1 & K2 & _). cbn [set_u w_u w_vold] in Sb, O1.
  destruct (ave_stress_ok V (w_u w1) (w_vold w1) (w_vnew w1) S (wk_u _ _ K2) (wk_old _ _ K2) (wk_new _ _ K2)) as (s & vn1 & Es & _). rewrite Es. cbn [bind fst snd].
  exists (set_vnew w1 vn1), er, s, b', n. split; [reflexivity|]. split; [exact He|]. split; [|exact Hn']. cbn [set_vnew w_u]. rewrite O1 in Er, Es.
  pose proof (wok_vars3 V w1 D K2) as W1. rewrite O1 in W1.
  assert (Wv : vars_ok V (w_vold w) vn) by (split; [exact (proj1 W1)|rewrite Lv, nvars_eq; reflexivity]).
  destruct (ave_any3 V (w_u w1) (w_vold w) (w_vnew w1) vn s vn1 B (wk_u _ _ K2) W1) as (v2 & E2); [rewrite (proj2 Wv), (proj2 W1); reflexivity|exact Es|].
  exists vn, b, nl, vn', v2. split; [exact (wk_u _ _ K2)|]. split; [exact Wv|]. split; [exact Lb|]. split; [exact (respond_bnd3 V u (w_u w1) eps B (wk_u _ _ K2) Sb Af)|].
  split; [exact Er|exact E2].
Qed.
Theorem respond_linear2 V fuel pk eps w i : body2 V -> adm V -> wok V w -> (ndofs V < 2000)%Z -> (2 <= fuel)%nat -> pk 1%Z = Ok i -> (i < 40)%Z ->
  exists w' er s b' n, respond fuel pk V eps w = Ok (w', false, 0%Z, er, s) /\ er <= 1 / 100000 /\ state2 V eps (w_u w') b' n s /\ n < 1 / 100000.
Proof.
  intros B A K Hn Hf Ep Hi. pose proof B as (S & G & D). unfold respond.
  destruct (displ2_spec V eps (w_u w) B (proj1 (wk_u _ _ K))) as (u & Eu & _ & Af & _). rewrite Eu. cbn [bind].
  destruct (displ_ok V eps (w_u w) S (wk_u _ _ K)) as (u2 & Eu2 & Fu). rewrite Eu in Eu2. injection Eu2 as <-.
  assert (K1 : wok V (set_u w u)) by (destruct K; constructor; assumption).
  destruct (linear_newton V fuel pk (set_u w u) i ltac:(split; [exact S|split; [exact G|split; [exact A|rewrite D; discriminate]]]) K1 Hn Hf Ep Hi) as (w1 & er & m & w0 & En & He & (vn & b & b' & nl & vn' & n & Lv & Lb & Er & Hn') & _).
  rewrite En. cbn [bind]. destruct (newton_real V fuel pk (set_u w u) w1 false 0%Z er S G K1 En) as (Sb & O1 & K2 & _). cbn [set_u w_u w_vold] in Sb, O1.
  pose proof (full_rep _ _ (wk_u _ _ K2)) as U1. rewrite (ndofs2 V S D) in U1.
  rewrite (ave_stress2_ok V _ S _ _ _ D U1). cbn [bind fst snd].
  eexists _, er, _, b', n. split; [reflexivity|]. split; [exact He|]. split; [|exact Hn']. cbn [set_vnew w_u].
  exists (w_vold w1), vn, b, nl, vn', vn. split; [exact (wk_u _ _ K2)|]. split; [exact Lb|]. split; [exact (respond_bnd2 V u (w_u w1) eps B (wk_u _ _ K2) Sb Af)|].
  split; [exact Er|exact (ave_stress2_ok V _ S _ _ _ D U1)].
Qed.

(** two states of one strain: their stresses agree up to their residuals *)
Theorem spread3 V e u1 v1 b1 n1 s1 u2 v2 b2 n2 s2 e' u' v' b' s' a' : body3 V -> linear V ->
  state3 V e u1 v1 b1 n1 s1 -> state3 V e u2 v2 b2 n2 s2 -> state3 V e' u' v' b' 0 s' -> affine_all3 V e' a' ->
  Rabs (v_lx V * v_ly V * (dot 6 (lget s1) (lget e') - dot 6 (lget s2) (lget e'))) <= (n1 + n2) * len (ndofs V) (fun r => val u' r - a' r).
Proof.
  intros B L S1 S2 S' A'. pose proof (affine_field3 V e B) as A.
  pose proof (reciprocity_body3 V _ _ _ _ _ _ _ _ _ _ _ _ _ _ B L S1 S' A A') as H1.
  pose proof (reciprocity_body3 V _ _ _ _ _ _ _ _ _ _ _ _ _ _ B L S2 S' A A') as H2.
  rewrite Rmult_0_l, Rplus_0_r in H1, H2.
  set (X := v_lx V * v_ly V * (dot 6 (lget s1) (lget e') - dot 6 (lget s') (lget e))) in *.
  set (Y := v_lx V * v_ly V * (dot 6 (lget s2) (lget e') - dot 6 (lget s') (lget e))) in *.
  replace (v_lx V * v_ly V * (dot 6 (lget s1) (lget e') - dot 6 (lget s2) (lget e'))) with (X - Y) by (unfold X, Y; ring).
  pose proof (Rabs_triang X (- Y)) as T. rewrite Rabs_Ropp in T. unfold Rminus at 1. rewrite Rmult_plus_distr_r. lra.
Qed.
Theorem spread2 V e u1 b1 n1 s1 u2 b2 n2 s2 e' u' b' s' a' : body2 V ->
  state2 V e u1 b1 n1 s1 -> state2 V e u2 b2 n2 s2 -> state2 V e' u' b' 0 s' -> affine_all2 V e' a' ->
  Rabs (v_lx V * v_ly V * (dot 3 (lget s1) (lget e') - dot 3 (lget s2) (lget e'))) <= (n1 + n2) * len (ndofs V) (fun r => val u' r - a' r).
Proof.
  intros B S1 S2 S' A'. pose proof (affine_field2 V e B) as A.
  pose proof (reciprocity_body2 V _ _ _ _ _ _ _ _ _ _ _ _ B S1 S' A A') as H1.
  pose proof (reciprocity_body2 V _ _ _ _ _ _ _ _ _ _ _ _ B S2 S' A A') as H2.
  rewrite Rmult_0_l, Rplus_0_r in H1, H2.
  set (X := v_lx V * v_ly V * (dot 3 (lget s1) (lget e') - dot 3 (lget s') (lget e))) in *.
  set (Y := v_lx V * v_ly V * (dot 3 (lget s2) (lget e') - dot 3 (lget s') (lget e))) in *.
  replace (v_lx V * v_ly V * (dot 3 (lget s1) (lget e') - dot 3 (lget s2) (lget e'))) with (X - Y) by (unfold X, Y; ring).
  pose proof (Rabs_triang X (- Y)) as T. rewrite Rabs_Ropp in T. unfold Rminus at 1. rewrite Rmult_plus_distr_r. lra.
Qed.
