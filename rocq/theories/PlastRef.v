(** Plasticity: where the code departs from the stated law. *)
From Coq Require Import Reals Lra Psatz ZifyBool.
From Verif Require Import Base Scalar EllSpec EllModel EllFinal Grid CgProps AssemblyModel AsmPure AsmBnd AsmRun
  FemGen FemAve FemMat FemMat2 FemPd FemRhs PlastProps AsmEx.
Open Scope Z_scope.
Open Scope R_scope.

(** Ka = 0: on the surface; Ka > 0: strictly inside *)
Theorem flow_surface m eps ep alpha : 0 < m_mu m -> 0 <= m_Ka m -> 0 <= m_Sy m + m_Ka m * alpha ->
  let p := plastic_step m eps ep alpha in ps_nl p = true ->
  (m_Ka m = 0 -> yieldf m (ps_stress p) (ps_alpha p) = 0) /\ (0 < m_Ka m -> yieldf m (ps_stress p) (ps_alpha p) < 0).
Proof.
  intros Hmu HK Hy p E. pose proof (dlam_pos m eps ep alpha Hmu E) as Hd.
  pose proof (yield_gap m eps ep alpha Hmu Hy E) as G. fold p in G. rewrite G. split; [intros ->; ring|intros; nra].
Qed.

(** pure shear of a material with mu = 1, no initial plastic strain *)
Definition shear (x : R) : list R := [0; 0; 0; x; 0; 0].
Lemma shear_get x i : (0 <= i < 6)%Z -> lget (shear x) i = if (i =? 3)%Z then x else 0.
Proof. intros Hi. pattern i. apply case6; [exact Hi|..]; reflexivity. Qed.
Definition mat1 Ka Sy : material R := elas 2 0 Ka Sy true.
Lemma mat1_mu Ka Sy : m_mu (mat1 Ka Sy) = 1. Proof. unfold mat1, elas; cbn [m_mu]. field. Qed.
Lemma shear_trial Ka Sy x y i : (0 <= i < 6)%Z -> trial (mat1 Ka Sy) (shear x) (shear y) i = if (i =? 3)%Z then x - y else 0.
Proof.
  intros Hi. unfold trial. rewrite mat1_mu. unfold tr. rewrite !shear_get by lia. cbn [Z.eqb Pos.eqb].
  pattern i. apply case6; [exact Hi|..]; cbn [Z.ltb Z.compare Pos.compare Pos.compare_cont Z.eqb Pos.eqb]; lra.
Qed.
Lemma shear_frob Ka Sy x y : frob2 (trial (mat1 Ka Sy) (shear x) (shear y)) = 2 * ((x - y) * (x - y)).
Proof. unfold frob2. rewrite !shear_trial by lia. cbn [Z.eqb Pos.eqb]. ring. Qed.

Definition z6 : list R := shear 0.
Lemma sqrt8 : sqrt (2 * ((2 - 0) * (2 - 0))) = 2 * sqrt 2.
Proof. replace (2 * ((2 - 0) * (2 - 0))) with ((2 * 2) * 2) by ring. rewrite sqrt_mult, sqrt_square; lra. Qed.
Lemma sqrt2_pos : 0 < sqrt 2. Proof. apply sqrt_lt_R0; lra. Qed.
Lemma shear_flow Ka : let p := plastic_step (mat1 Ka 0) (shear 2) z6 0 in
  ps_nl p = true /\ lget (ps_eps_p p) 3 = 1 /\ lget (ps_stress p) 3 = 0.
Proof.
  intros p. assert (Hmu : 0 < m_mu (mat1 Ka 0)) by (rewrite mat1_mu; lra). pose proof sqrt2_pos.
  destruct (step_forms (mat1 Ka 0) (shear 2) z6 0 Hmu) as (N & Q & _). fold p in N, Q.
  assert (F : ftrial (mat1 Ka 0) (shear 2) z6 0 = 2 * sqrt 2).
  { unfold ftrial, z6. rewrite shear_frob, sqrt8. unfold mat1, elas; cbn [m_Sy m_Ka]. ring. }
  rewrite F in N. assert (E : ps_nl p = true) by (apply N; lra). split; [exact E|].
  destruct (Q 3%Z ltac:(lia)) as (-> & ->). rewrite E. unfold dlam. rewrite F, mat1_mu. unfold z6. rewrite !shear_trial, shear_frob, sqrt8 by lia.
  rewrite shear_get by lia. cbn [Z.ltb Z.compare Pos.compare Pos.compare_cont Z.eqb Pos.eqb]. split; field; lra.
Qed.

Theorem surface_refuted : exists (m : material R) eps ep alpha, 0 < m_mu m /\ 0 <= m_Ka m /\ 0 <= m_Sy m /\
  let p := plastic_step m eps ep alpha in ps_nl p = true /\ yieldf m (ps_stress p) (ps_alpha p) <> 0.
Proof.
  exists (mat1 1 0), (shear 2), z6, 0. split; [rewrite mat1_mu; lra|]. split; [cbn; lra|]. split; [cbn; lra|].
  intros p. destruct (shear_flow 1) as (E & _). split; [exact E|].
  destruct (flow_surface (mat1 1 0) (shear 2) z6 0) as (_ & H); rewrite ?mat1_mu; cbn [m_Ka m_Sy mat1 elas]; try lra; [exact E|].
  cbn [m_Ka mat1 elas] in H. fold p in H. lra.
Qed.

Lemma shear_again : let p := plastic_step (mat1 1 0) (shear 2) z6 0 in
  lget (ps_stress (plastic_step (mat1 1 0) (shear 2) (ps_eps_p p) (ps_alpha p))) 3 <> lget (ps_stress p) 3.
Proof.
  intros p. assert (Hmu : 0 < m_mu (mat1 1 0)) by (rewrite mat1_mu; lra).
  destruct (shear_flow 1) as (E & P3 & S3). fold p in E, P3, S3. rewrite S3. intros X.
  assert (Pi : forall i, (0 <= i < 6)%Z -> lget (ps_eps_p p) i = lget (shear 1) i).
  { intros i Hi. destruct (Z.eq_dec i 3) as [-> | n]; [rewrite P3; reflexivity|].
    destruct (step_forms (mat1 1 0) (shear 2) z6 0 Hmu) as (_ & Q & _). destruct (Q i Hi) as (Qi & _). fold p in Qi. rewrite Qi, E.
    unfold z6. rewrite shear_trial by assumption. replace (i =? 3)%Z with false by lia. unfold Rdiv. rewrite Rmult_0_l, Rmult_0_r.
    rewrite !shear_get by assumption. replace (i =? 3)%Z with false by lia. ring. }
  assert (T1 : forall i, (0 <= i < 6)%Z -> trial (mat1 1 0) (shear 2) (ps_eps_p p) i = trial (mat1 1 0) (shear 2) (shear 1) i).
  { intros i Hi. unfold trial, tr. rewrite !Pi by lia. reflexivity. }
  assert (F1 : frob2 (trial (mat1 1 0) (shear 2) (ps_eps_p p)) = 2).
  { rewrite (frob2_ext _ _ T1), shear_frob. ring. }
  assert (A1 : sqrt (2 / 3) * ps_alpha p = 2 / 3 * sqrt 2).
  { destruct (step_forms (mat1 1 0) (shear 2) z6 0 Hmu) as (_ & _ & A). fold p in A. rewrite A, E. unfold dlam, ftrial, z6. rewrite mat1_mu, shear_frob, sqrt8.
    cbn [m_Sy m_Ka mat1 elas]. pose proof sqrt23_sq as Q. set (q := sqrt (2 / 3)) in *. set (w := sqrt 2).
    replace (q * (0 + q * ((2 * w - q * (0 + 1 * 0)) / (2 * 1)))) with (q * q * w) by field. rewrite Q. reflexivity. }
  assert (F : ftrial (mat1 1 0) (shear 2) (ps_eps_p p) (ps_alpha p) = sqrt 2 / 3).
  { unfold ftrial. rewrite F1. cbn [m_Sy m_Ka mat1 elas].
    replace (sqrt (2 / 3) * (0 + 1 * ps_alpha p)) with (sqrt (2 / 3) * ps_alpha p) by ring. rewrite A1. field. }
  pose proof sqrt2_pos as W.
  destruct (step_forms (mat1 1 0) (shear 2) (ps_eps_p p) (ps_alpha p) Hmu) as (N & Q & _). rewrite F in N.
  assert (E2 : ps_nl (plastic_step (mat1 1 0) (shear 2) (ps_eps_p p) (ps_alpha p)) = true) by (apply N; lra).
  destruct (Q 3%Z ltac:(lia)) as (_ & Q3). rewrite X, E2, F, F1, T1, shear_trial in Q3 by lia. cbn [Z.ltb Z.compare Pos.compare Pos.compare_cont Z.eqb Pos.eqb] in Q3.
  replace (0 + (2 - 1) - sqrt 2 / 3 * ((2 - 1) / sqrt 2)) with (2 / 3) in Q3 by (field; lra). lra.
Qed.

(** the stress is not the elastic stress of the new plastic strain, and the same
    strain from the new variables gives another stress *)
Theorem elastic_refuted : exists (m : material R) eps ep alpha, admissible m /\ 0 <= m_Ka m /\ 0 <= m_Sy m /\ tr ep = 0 /\
  let p := plastic_step m eps ep alpha in
  lget (ps_stress p) 3 <> lget (elastic m eps (ps_eps_p p)) 3 /\
  lget (ps_stress (plastic_step m eps (ps_eps_p p) (ps_alpha p))) 3 <> lget (ps_stress p) 3.
Proof.
  exists (mat1 1 0), (shear 2), z6, 0. split; [apply elas_adm; lra|]. split; [cbn; lra|]. split; [cbn; lra|].
  split; [unfold tr, z6; rewrite !shear_get by lia; cbn [Z.eqb Pos.eqb]; lra|]. intros p. assert (Hmu : 0 < m_mu (mat1 1 0)) by (rewrite mat1_mu; lra).
  destruct (shear_flow 1) as (E & P3 & S3). fold p in E, P3, S3. split.
  - rewrite S3, elastic_entry by lia. cbn [Z.ltb Z.compare Pos.compare Pos.compare_cont]. rewrite P3, mat1_mu, shear_get by lia. cbn [Z.eqb Pos.eqb]. lra.
  - exact shear_again.
Qed.

(** without plastic shear the law holds and the step is idempotent *)
Theorem elastic_partial m eps ep alpha : admissible m -> 0 <= m_Ka m -> 0 <= m_Sy m + m_Ka m * alpha -> tr ep = 0 ->
  (forall i, (3 <= i < 6)%Z -> lget eps i = lget ep i) ->
  let p := plastic_step m eps ep alpha in let p2 := plastic_step m eps (ps_eps_p p) (ps_alpha p) in
  (forall i, (0 <= i < 6)%Z -> lget (ps_stress p) i = lget (elastic m eps (ps_eps_p p)) i) /\
  ps_nl p2 = false /\ ps_alpha p2 = ps_alpha p /\
  (forall i, (0 <= i < 6)%Z -> lget (ps_stress p2) i = lget (ps_stress p) i /\ lget (ps_eps_p p2) i = lget (ps_eps_p p) i).
Proof.
  intros A HK Hy T0 Hs p p2. pose proof (adm_mu m A) as Hmu. pose proof (adm_bulk m A) as Hk. symmetry in Hk.
  assert (X : forall i, (3 <= i < 6)%Z -> lget (ps_eps_p p) i = lget ep i).
  { intros i Hi. destruct (step_forms m eps ep alpha Hmu) as (_ & Q & _). destruct (Q i ltac:(lia)) as (Qi & _). fold p in Qi. rewrite Qi.
    assert (Z0 : trial m eps ep i = 0). { unfold trial. replace (i <? 3)%Z with false by lia. rewrite Hs by assumption. ring. }
    rewrite Z0. destruct ps_nl; unfold Rdiv; ring. }
  assert (L : forall i, (0 <= i < 6)%Z -> lget (ps_stress p) i = lget (elastic m eps (ps_eps_p p)) i).
  { intros i Hi. unfold p. rewrite (stress_law m eps ep alpha Hmu Hk T0 i Hi). fold p.
    destruct (i <? 3)%Z eqn:Q; [ring|]. rewrite (X i) by lia. ring. }
  assert (T1 : tr (ps_eps_p p) = 0) by (unfold p; rewrite eps_p_tr; assumption).
  assert (NF : ps_nl p2 = false).
  { destruct (ps_nl p2) eqn:E; [|reflexivity]. exfalso.
    destruct (step_forms m eps (ps_eps_p p) (ps_alpha p) Hmu) as (N & _). fold p2 in N. apply N in E.
    pose proof (yield_new m eps ep alpha Hmu Hy HK) as Y. fold p in Y. unfold yieldf in Y. unfold ftrial in E.
    rewrite (frob2_ext (trial m eps (ps_eps_p p)) (sdev (ps_stress p))) in E; [lra|].
    intros i Hi. unfold sdev. unfold p at 3. rewrite (stress_tr m eps ep alpha Hmu). rewrite (L i Hi), elastic_entry by assumption.
    unfold trial. rewrite T1, Hk. destruct (i <? 3)%Z; field. }
  destruct (no_flow m eps (ps_eps_p p) (ps_alpha p) Hmu NF) as (Al & Ep & _). fold p2 in Al, Ep.
  split; [exact L|]. split; [exact NF|]. split; [exact Al|]. intros i Hi. split; [|now apply Ep].
  unfold p2. rewrite (no_flow_linear m eps (ps_eps_p p) (ps_alpha p) Hmu Hk T1 NF i Hi). symmetry. now apply L.
Qed.

(** ** The flag of assembly_rhs *)
Definition cube : env R := box 3 2 2 2 1 1 1 (mat1 0 1) (mat1 0 1).
(** u_x = 2 (x - a) (y - b), a and b the coordinates of the last Gauss point *)
Definition saddle (r : Z) : R :=
  if (r mod 3 =? 0)%Z then 2 * (IZR ((r / 3) mod 2) - (1 - gpt) / 2) * (IZR ((r / 6) mod 2) - (1 + gpt) / 2) else 0.
Lemma saddle_node c i j k : (0 <= i < 2)%Z -> (0 <= j < 2)%Z -> (0 <= c < 3)%Z ->
  cmp3 cube saddle c i j k = if (c =? 0)%Z then 2 * (IZR i - (1 - gpt) / 2) * (IZR j - (1 + gpt) / 2) else 0.
Proof.
  intros Hi Hj Hc. unfold cmp3, saddle, cube, box; cbn [v_nx v_ny].
  destruct (node_coords 2 2 i j k Hi Hj) as (E1 & E2 & _).
  replace ((node 2 2 i j k * 3 + c) mod 3)%Z with c by (rewrite Z.add_comm, Z.mod_add, Z.mod_small by lia; lia).
  replace ((node 2 2 i j k * 3 + c) / 3)%Z with (node 2 2 i j k) by (rewrite Z.div_add_l, Z.div_small by lia; lia).
  replace ((node 2 2 i j k * 3 + c) / 6)%Z with (node 2 2 i j k / 2)%Z
    by (change 6%Z with (3 * 2)%Z; rewrite <- Z.div_div, Z.div_add_l, (Z.div_small c) by lia; f_equal; lia).
  rewrite E1, E2. destruct (Z.eqb_spec c 0); reflexivity.
Qed.
Lemma cube_d : v_dx cube = 1 /\ v_dy cube = 1 /\ v_dz cube = 1.
Proof. unfold cube, box; cbn. repeat split; field. Qed.
Lemma saddle_strain g v : (0 <= v < 6)%Z -> str3 cube saddle (0, 0, 0)%Z g v =
  if (v =? 0)%Z then xg g 1 - gpt else if (v =? 3)%Z then xg g 0 + gpt else 0.
Proof.
  intros Hv. rewrite str3_grad by assumption. cbv beta zeta.
  assert (X : forall c d, (0 <= c < 3)%Z -> (0 <= d < 3)%Z -> gr3 cube g c (at3 (cmp3 cube saddle d) (0, 0, 0)%Z) =
     if (d =? 0)%Z then (if (c =? 0)%Z then xg g 1 - gpt else if (c =? 1)%Z then xg g 0 + gpt else 0) else 0).
  { intros c d Hc Hd. unfold gr3. rewrite (grad3_ext _ _ _ _ _ _ c _ (fun n => if (d =? 0)%Z then 2 * (IZR (cor_x n) - (1 - gpt) / 2) * (IZR (cor_y n) - (1 + gpt) / 2) else 0)).
    2:{ intros n Hn. unfold at3. destruct (EllAsm.cor_bound n Hn) as (B1 & B2 & B3). rewrite saddle_node by lia. reflexivity. }
    unfold grad3. rewrite zr8. cbn [rsum]. destruct cube_d as (-> & -> & ->). unfold dsh3. cors.
    generalize (gpt : R) (xg g 0 : R) (xg g 1 : R) (xg g 2 : R). intros p a b z.
    destruct (d =? 0)%Z; pattern c; apply case3; try exact Hc; cbn; field. }
  rewrite !X by lia. pattern v. apply case6; [exact Hv|..]; cbn [Z.eqb Pos.eqb]; ring.
Qed.
Lemma gpt_half : 1 / 2 < (gpt : R).
Proof. unfold gpt, dec. cbn. lra. Qed.

Lemma cube_sane : sane cube.
Proof. apply (box_sane 3 2 2 2 1 1 1 (mat1 0 1) (mat1 0 1) ltac:(unfold goodbox; lia) true true); reflexivity. Qed.
Lemma cube_plastic e : (0 <= e < ncells cube)%Z -> plastic_at cube e = true.
Proof. intros He. apply (box_plastic 3 2 2 2 1 1 1 (mat1 0 1) (mat1 0 1)); try reflexivity. exact He. Qed.
Lemma cube_mat e : (0 <= e < ncells cube)%Z -> mat_at cube e = mat1 0 1.
Proof. intros He. destruct (box_mat_in 3 2 2 2 1 1 1 (mat1 0 1) (mat1 0 1) e He); assumption. Qed.

Lemma saddle_flow g : (0 <= g < 8)%Z ->
  nl3 cube (fun _ => 0) (0, 0, 0)%Z g (strain3 cube saddle (0, 0, 0)%Z g) = true <->
  1 * 1 < 4 * ((xg g 1 - gpt) * (xg g 1 - gpt)) + 3 * ((xg g 0 + gpt) * (xg g 0 + gpt)).
Proof.
  intros Hg. unfold nl3, step3. assert (He : (0 <= ix3 cube (0, 0, 0)%Z < ncells cube)%Z) by (unfold ncells, nelem, ix3; cbn; lia).
  rewrite (cube_plastic _ He), (cube_mat _ He).
  assert (Hmu : 0 < m_mu (mat1 0 1)) by (rewrite mat1_mu; lra).
  destruct (step_forms (mat1 0 1) (strain3 cube saddle (0, 0, 0)%Z g) (ltab 6 (fun _ => 0)) 0 Hmu) as (-> & _).
  assert (F : frob2 (trial (mat1 0 1) (strain3 cube saddle (0, 0, 0)%Z g) (ltab 6 (fun _ => 0))) =
    2 / 3 * (4 * ((xg g 1 - gpt) * (xg g 1 - gpt)) + 3 * ((xg g 0 + gpt) * (xg g 0 + gpt)))).
  { assert (E : forall i, (0 <= i < 6)%Z -> lget (ltab 6 (fun _ : Z => 0)) i = 0) by (intros; now rewrite lget_ltab).
    unfold frob2, trial, tr. cbn [Z.ltb Z.compare Pos.compare Pos.compare_cont]. rewrite !E, !strain3_str, !saddle_strain, mat1_mu by lia.
    cbn [Z.eqb Pos.eqb]. field. }
  unfold ftrial. rewrite F. cbn [m_Sy m_Ka mat1 elas]. set (q := 4 * ((xg g 1 - gpt) * (xg g 1 - gpt)) + 3 * ((xg g 0 + gpt) * (xg g 0 + gpt))).
  assert (Hq : 0 <= q).
  { unfold q. pose proof (Rle_0_sqr (xg g 1 - gpt)) as Q1. pose proof (Rle_0_sqr (xg g 0 + gpt)) as Q2. unfold Rsqr in Q1, Q2. lra. }
  clearbody q. rewrite (sqrt_mult (2 / 3) q) by lra. pose proof sqrt23_pos as P.
  replace (sqrt (2 / 3) * sqrt q - sqrt (2 / 3) * (1 + 0 * 0)) with (sqrt (2 / 3) * (sqrt q - 1)) by ring. split; intros H.
  - assert (1 < sqrt q) by nra. apply sqrt_lt_0_alt. rewrite sqrt_square; lra.
  - assert (1 < sqrt q) by (rewrite <- (sqrt_square 1) by lra; apply sqrt_lt_1_alt; lra). nra.
Qed.

(** C36 refuted: only the last Gauss point of each cell counts *)
Theorem flag_refuted : exists b' vn nrm, assembly_rhs cube (fun_arr 24 saddle) (const_arr 56 0) (const_arr 56 0) (const_arr 24 0) = Ok (b', false, vn, nrm) /\
  exists eps sig vn', get_strain3D cube (fun_arr 24 saddle) 0 0 0 0 = Ok eps /\
    get_stress3D cube (const_arr 56 0) (const_arr 56 0) 0 0 0 0 eps = Ok (true, sig, vn').
Proof.
  assert (S : sane cube) by exact cube_sane.
  assert (O : old_ok cube (fun _ => 0) (const_arr 56 0)).
  { intros e g i He Hg Hi _. apply (const_arr_rep 56 0). unfold ncells, nelem in He. cbn in He. unfold intvar_ix. lia. }
  assert (U : rep (fun_arr 24 saddle) 24 saddle) by apply fun_arr_rep.
  assert (Hin : In (0, 0, 0)%Z (els3 cube)) by (apply in_els3; cbn; lia).
  pose proof gpt_half as Hp.
  assert (N7 : nl3 cube (fun _ => 0) (0, 0, 0)%Z 7 (strain3 cube saddle (0, 0, 0)%Z 7) = false).
  { destruct (nl3 _ _ _ _ _) eqn:E; [|reflexivity]. apply saddle_flow in E; [|lia]. exfalso. rewrite !xg_val in E. cbn -[gpt] in E.
    generalize dependent (gpt : R). intros p _ E. nra. }
  assert (N0 : nl3 cube (fun _ => 0) (0, 0, 0)%Z 0 (strain3 cube saddle (0, 0, 0)%Z 0) = true).
  { apply saddle_flow; [lia|]. rewrite !xg_val. cbn -[gpt]. nra. }
  destruct (rhs3_ok cube saddle (fun _ => 0) S (fun_arr 24 saddle) (const_arr 56 0) (const_arr 56 0) (const_arr 24 0)
    eq_refl U O eq_refl eq_refl) as (b' & vn & E & _).
  assert (Fl : existsb (fun e => nl3 cube (fun _ => 0) e 7 (strain3 cube saddle e 7)) (els3 cube) = false).
  { change (els3 cube) with [(0, 0, 0)%Z]. cbn [existsb]. now rewrite N7. }
  rewrite Fl in E. exists b', vn. eexists. split; [exact E|].
  exists (strain3 cube saddle (0, 0, 0)%Z 0).
  destruct (run_stores_ok (st3 cube (fun _ => 0) (0, 0, 0)%Z 0 (strain3 cube saddle (0, 0, 0)%Z 0)) (const_arr 56 0)) as (vn' & Ev & _).
  { intros j x H. apply (st3_range cube saddle (fun _ => 0)) in H; [|reflexivity|exact Hin|lia]. exact H. }
  do 2 eexists. split; [now apply strain3_ok|].
  rewrite (stress3_ok cube saddle (fun _ => 0)) by (try assumption; try reflexivity; lia). rewrite Ev. cbn [bind]. now rewrite N0.
Qed.
