(** The return mapping in exact arithmetic. *)
From Coq Require Import Reals Lra Psatz.
From Verif Require Import Base Scalar AssemblyModel AsmPure FemGen FemMat FemPd.
Open Scope Z_scope.
Open Scope R_scope.

Definition tr (t : list R) : R := lget t 0 + lget t 1 + lget t 2.
(** square of the Frobenius norm of a symmetric tensor stored as 11 22 33 12 13 23 *)
Definition frob2 (t : Z -> R) : R :=
  t 0%Z * t 0%Z + t 1%Z * t 1%Z + t 2%Z * t 2%Z + 2 * (t 3%Z * t 3%Z + t 4%Z * t 4%Z + t 5%Z * t 5%Z).
Definition tdot (s t : Z -> R) : R :=
  s 0%Z * t 0%Z + s 1%Z * t 1%Z + s 2%Z * t 2%Z + 2 * (s 3%Z * t 3%Z + s 4%Z * t 4%Z + s 5%Z * t 5%Z).
(** deviator of a stress *)
Definition sdev (t : list R) (i : Z) : R := lget t i - if (i <? 3)%Z then tr t / 3 else 0.
(** von Mises function: |dev sig| - sqrt(2/3) (Sy + Ka alpha) *)
Definition yieldf (m : material R) (sig : list R) (alpha : R) : R :=
  sqrt (frob2 (sdev sig)) - sqrt (2 / 3) * (m_Sy m + m_Ka m * alpha).

(** trial deviatoric stress *)
Definition trial (m : material R) (eps ep : list R) (i : Z) : R :=
  if (i <? 3)%Z then 2 * m_mu m * ((lget eps i - tr eps / 3) - (lget ep i - tr ep / 3))
  else m_mu m * (lget eps i - lget ep i).
Definition ftrial m eps ep alpha := sqrt (frob2 (trial m eps ep)) - sqrt (2 / 3) * (m_Sy m + m_Ka m * alpha).

Lemma frob2_nonneg t : 0 <= frob2 t. Proof. unfold frob2. nra. Qed.
Lemma frob2_scal c t s : (forall i, (0 <= i < 6)%Z -> t i = c * s i) -> frob2 t = c * c * frob2 s.
Proof. intros H. unfold frob2. rewrite !H by lia. ring. Qed.
Lemma frob2_ext t s : (forall i, (0 <= i < 6)%Z -> t i = s i) -> frob2 t = frob2 s.
Proof. intros H. unfold frob2. rewrite !H by lia. ring. Qed.
Lemma trial_tr m eps ep : trial m eps ep 0 + trial m eps ep 1 + trial m eps ep 2 = 0.
Proof. unfold trial, tr; cbn [Z.ltb Z.compare Pos.compare Pos.compare_cont]. field. Qed.

Lemma sqrt23_pos : 0 < sqrt (2 / 3). Proof. apply sqrt_lt_R0. lra. Qed.
Lemma sqrt23_sq : sqrt (2 / 3) * sqrt (2 / 3) = 2 / 3. Proof. apply sqrt_sqrt. lra. Qed.

(** closed form of plastic_step *)
Definition dlam (m : material R) eps ep alpha : R := ftrial m eps ep alpha / (2 * m_mu m).
Lemma step_forms m eps ep alpha : 0 < m_mu m -> let p := plastic_step m eps ep alpha in
  let s := trial m eps ep in let f := ftrial m eps ep alpha in
  (ps_nl p = true <-> 0 < f) /\
  (forall i, (0 <= i < 6)%Z ->
    lget (ps_eps_p p) i = lget ep i + (if ps_nl p then dlam m eps ep alpha * (s i / sqrt (frob2 s)) else 0) /\
    lget (ps_stress p) i = (if (i <? 3)%Z then m_k m * tr eps else 0) + s i - (if ps_nl p then f * (s i / sqrt (frob2 s)) else 0)) /\
  ps_alpha p = alpha + (if ps_nl p then sqrt (2 / 3) * dlam m eps ep alpha else 0).
Proof.
  intros Hmu p s f.
  assert (Q : forall i, (0 <= i < 6)%Z -> lget (ltab 6 (fun i => if (i <? 3)%Z
             then (ofZ 2 * m_mu m * (lget (dev eps) i - lget (dev ep) i))%num
             else (m_mu m * (lget (dev eps) i - lget (dev ep) i))%num)) i = s i).
  { intros i Hi. rewrite lget_ltab by assumption. unfold dev. rewrite !lget_ltab by assumption.
    unfold s, trial, tr. cbn [oadd osub omul odiv ofZ ROps]. destruct (i <? 3)%Z; field. }
  set (S := ltab 6 _) in Q.
  assert (N : osqrt (oadd (oadd (oadd (oadd (oadd (omul (lget S 0) (lget S 0)) (omul (lget S 1) (lget S 1))) (omul (lget S 2) (lget S 2)))
      (omul (omul (ofZ 2) (lget S 3)) (lget S 3))) (omul (omul (ofZ 2) (lget S 4)) (lget S 4))) (omul (omul (ofZ 2) (lget S 5)) (lget S 5)))
      = sqrt (frob2 s)).
  { rewrite !Q by lia. cbn [osqrt oadd omul ofZ ROps]. f_equal. unfold frob2. ring. }
  assert (F : osub (sqrt (frob2 s)) (omul (osqrt (odiv (ofZ 2) (ofZ 3))) (oadd (m_Sy m) (omul (m_Ka m) alpha))) = f).
  { reflexivity. }
  unfold p, plastic_step. cbv beta zeta. fold S. rewrite !N, !F. cbn [ps_nl ps_eps_p ps_stress ps_alpha].
  assert (DL : odiv f (omul (omul (ofZ 2) (m_mu m)) (oadd (ofZ 1) (odiv (omul (ofZ 0) (m_Ka m)) (omul (ofZ 3) (m_mu m))))) = dlam m eps ep alpha).
  { cbn [odiv omul oadd ofZ ROps]. unfold dlam. fold f. field. lra. }
  rewrite !DL. cbn [oltb ROps ofZ]. unfold Rltb. destruct (Rlt_dec 0 f) as [Hf|Hf].
  - split; [tauto|]. split; [|reflexivity]. intros i Hi. rewrite !lget_ltab by assumption. rewrite !Q by assumption.
    cbn [oadd osub omul odiv ofZ ROps]. split; [reflexivity|]. unfold tr. unfold dlam; fold f.
    replace (2 * m_mu m * (f / (2 * m_mu m))) with f by (field; lra). destruct (i <? 3)%Z; ring.
  - split; [split; [discriminate|tauto]|]. split; [|cbn; lra]. intros i Hi. rewrite !lget_ltab by assumption. rewrite !Q by assumption.
    rewrite FemGen.lget_zeros by assumption. cbn [oadd osub omul odiv ofZ ROps]. split; [lra|]. unfold tr. destruct (i <? 3)%Z; lra.
Qed.

Section Step.
Variables (m : material R) (eps ep : list R) (alpha : R).
Hypothesis Hmu : 0 < m_mu m.
Let p := plastic_step m eps ep alpha.
Let s := trial m eps ep.
Let f := ftrial m eps ep alpha.
Lemma nl_spec : ps_nl p = true <-> 0 < f. Proof. apply step_forms, Hmu. Qed.
Lemma ep_spec i : (0 <= i < 6)%Z -> lget (ps_eps_p p) i = lget ep i + (if ps_nl p then dlam m eps ep alpha * (s i / sqrt (frob2 s)) else 0).
Proof. intros Hi. now apply step_forms. Qed.
Lemma sig_spec i : (0 <= i < 6)%Z -> lget (ps_stress p) i = (if (i <? 3)%Z then m_k m * tr eps else 0) + s i - (if ps_nl p then f * (s i / sqrt (frob2 s)) else 0).
Proof. intros Hi. now apply step_forms. Qed.
Lemma al_spec : ps_alpha p = alpha + (if ps_nl p then sqrt (2 / 3) * dlam m eps ep alpha else 0).
Proof. now apply step_forms. Qed.

Lemma s_tr : s 0%Z + s 1%Z + s 2%Z = 0. Proof. apply trial_tr. Qed.

Lemma dlam_pos : ps_nl p = true -> 0 < dlam m eps ep alpha.
Proof. intros H. apply nl_spec in H. unfold dlam. fold f. apply Rdiv_lt_0_compat; lra. Qed.

(** trace of the stress: the elastic bulk law *)
Lemma stress_tr : tr (ps_stress p) = 3 * m_k m * tr eps.
Proof.
  unfold tr at 1. rewrite !sig_spec by lia. cbn [Z.ltb Z.compare Pos.compare Pos.compare_cont].
  pose proof s_tr as H. set (n := sqrt (frob2 s)). destruct (ps_nl p).
  - replace (s 2%Z) with (- s 0%Z - s 1%Z) by lra. unfold Rdiv. ring.
  - lra.
Qed.
(** isochoric flow *)
Lemma eps_p_tr : tr (ps_eps_p p) = tr ep.
Proof.
  unfold tr. rewrite !ep_spec by lia. pose proof s_tr as H. destruct (ps_nl p); [|lra].
  replace (s 2%Z) with (- s 0%Z - s 1%Z) by lra. unfold Rdiv. ring.
Qed.
Lemma alpha_mono : alpha <= ps_alpha p /\ (ps_alpha p = alpha <-> ps_nl p = false).
Proof.
  rewrite al_spec. pose proof sqrt23_pos. destruct (ps_nl p) eqn:E.
  - pose proof (dlam_pos E). split; [nra|]. split; [intros; exfalso; nra|discriminate].
  - split; [lra|]. split; [reflexivity|lra].
Qed.
Lemma no_flow : ps_nl p = false -> ps_alpha p = alpha /\ (forall i, (0 <= i < 6)%Z -> lget (ps_eps_p p) i = lget ep i) /\
  forall i, (0 <= i < 6)%Z -> lget (ps_stress p) i = (if (i <? 3)%Z then m_k m * tr eps else 0) + s i.
Proof.
  intros E. split; [rewrite al_spec, E; lra|]. split; intros i Hi.
  - rewrite ep_spec, E by assumption. lra.
  - rewrite sig_spec, E by assumption. lra.
Qed.
Lemma stress_dev i : (0 <= i < 6)%Z -> sdev (ps_stress p) i = s i - (if ps_nl p then f * (s i / sqrt (frob2 s)) else 0).
Proof.
  intros Hi. unfold sdev. rewrite stress_tr, sig_spec by assumption. destruct (i <? 3)%Z; [field_simplify|]; lra.
Qed.

Hypothesis Hy : 0 <= m_Sy m + m_Ka m * alpha.
Lemma norm_pos : ps_nl p = true -> 0 < sqrt (frob2 s).
Proof.
  intros H. apply nl_spec in H. unfold f, ftrial in H. fold s in H. pose proof sqrt23_pos.
  assert (0 <= sqrt (2 / 3) * (m_Sy m + m_Ka m * alpha)) by nra. lra.
Qed.
Lemma dev_scaled : ps_nl p = true -> forall i, (0 <= i < 6)%Z ->
  sdev (ps_stress p) i = (sqrt (2 / 3) * (m_Sy m + m_Ka m * alpha) / sqrt (frob2 s)) * s i.
Proof.
  intros H i Hi. pose proof (norm_pos H). rewrite stress_dev, H by assumption. unfold f, ftrial. fold s. field. lra.
Qed.
(** after flow the deviatoric stress has the size of the old yield radius *)
Lemma norm_flow : ps_nl p = true -> sqrt (frob2 (sdev (ps_stress p))) = sqrt (2 / 3) * (m_Sy m + m_Ka m * alpha).
Proof.
  intros H. pose proof (norm_pos H) as Hn. pose proof sqrt23_pos.
  rewrite (frob2_scal _ _ s (dev_scaled H)).
  set (r := sqrt (2 / 3) * (m_Sy m + m_Ka m * alpha)) in *. assert (Hr : 0 <= r) by (unfold r; nra).
  rewrite sqrt_mult_alt, sqrt_square; [field; lra| |].
  - apply Rmult_le_pos; [assumption|]. left. now apply Rinv_0_lt_compat.
  - nra.
Qed.
Lemma yield_old : yieldf m (ps_stress p) alpha <= 0 /\ (ps_nl p = true -> yieldf m (ps_stress p) alpha = 0).
Proof.
  destruct (ps_nl p) eqn:E.
  - unfold yieldf. rewrite (norm_flow E). split; [|intros _]; lra.
  - split; [|discriminate]. unfold yieldf. rewrite (frob2_ext _ s); [|intros i Hi; rewrite stress_dev, E by assumption; lra].
    destruct (Rle_or_lt f 0) as [H|H]; [exact H|]. apply nl_spec in H. congruence.
Qed.
(** C33: admissible for the updated hardening variable *)
Lemma yield_new : 0 <= m_Ka m -> yieldf m (ps_stress p) (ps_alpha p) <= 0.
Proof.
  intros HK. destruct yield_old as (Y & _). destruct alpha_mono as (A & _). unfold yieldf in *. pose proof sqrt23_pos.
  assert (0 <= sqrt (2/3) * (m_Ka m * (ps_alpha p - alpha))) by (apply Rmult_le_pos; nra). nra.
Qed.
Lemma yield_gap : ps_nl p = true -> yieldf m (ps_stress p) (ps_alpha p) = - (2 / 3) * m_Ka m * dlam m eps ep alpha.
Proof.
  intros E. destruct yield_old as (_ & Y). specialize (Y E). unfold yieldf in *. rewrite al_spec, E.
  pose proof sqrt23_sq as Q. set (q := sqrt (2 / 3)) in *. set (d := dlam m eps ep alpha). set (N := sqrt (frob2 (sdev (ps_stress p)))) in *.
  replace (N - q * (m_Sy m + m_Ka m * (alpha + q * d))) with (N - q * (m_Sy m + m_Ka m * alpha) - q * q * m_Ka m * d) by ring.
  rewrite Y, Q. ring.
Qed.
(** dissipation: stress times plastic strain increment *)
Lemma dissipation : 0 <= tdot (lget (ps_stress p)) (fun i => lget (ps_eps_p p) i - lget ep i).
Proof.
  unfold tdot. rewrite !ep_spec, !sig_spec by lia. cbn [Z.ltb Z.compare Pos.compare Pos.compare_cont].
  destruct (ps_nl p) eqn:E; [|right; ring]. pose proof (norm_pos E) as Hn. pose proof (dlam_pos E) as Hd.
  set (n := sqrt (frob2 s)) in *. set (d := dlam m eps ep alpha) in *.
  assert (Hn2 : frob2 s = n * n) by (unfold n; rewrite sqrt_sqrt; [reflexivity|apply frob2_nonneg]).
  assert (Q : tdot s s = n * n) by (rewrite <- Hn2; unfold tdot, frob2; ring). unfold tdot in Q. pose proof s_tr as T0.
  set (a := s 0%Z) in *. set (b := s 1%Z) in *. set (c := s 2%Z) in *. set (x := s 3%Z) in *. set (y := s 4%Z) in *. set (z := s 5%Z) in *.
  replace (_ + _) with (d / n * (m_k m * tr eps * (a + b + c)) + d / n * ((1 - f / n) * (a * a + b * b + c * c + 2 * (x * x + y * y + z * z)))) by (field; lra).
  rewrite T0, Q. replace (d / n * (m_k m * tr eps * 0) + d / n * ((1 - f / n) * (n * n))) with (d * (n - f)) by (field; lra).
  apply Rmult_le_pos; [lra|]. unfold n, f, ftrial. fold s. pose proof sqrt23_pos. nra.
Qed.
End Step.

(** stress of the elastic law for the strain eps and plastic strain ep *)
Definition elastic (m : material R) (eps ep : list R) : list R :=
  lin_stress3 (m_lambda m) (m_mu m) (ltab 6 (fun i => lget eps i - lget ep i)).
Lemma elastic_entry m eps ep i : (0 <= i < 6)%Z -> lget (elastic m eps ep) i =
  if (i <? 3)%Z then m_lambda m * (tr eps - tr ep) + 2 * m_mu m * (lget eps i - lget ep i) else m_mu m * (lget eps i - lget ep i).
Proof.
  intros Hi. unfold elastic, lin_stress3. rewrite !lget_ltab by lia. cbn [oadd omul ofZ ROps]. unfold tr. destruct (i <? 3)%Z; ring.
Qed.

(** the returned stress against the elastic law of the new plastic strain: right on
    the normal components, off by mu times the plastic shear increment on the others *)
Theorem stress_law m eps ep alpha : 0 < m_mu m -> m_k m = m_lambda m + 2 * m_mu m / 3 -> tr ep = 0 ->
  let p := plastic_step m eps ep alpha in
  forall i, (0 <= i < 6)%Z -> lget (ps_stress p) i =
    lget (elastic m eps (ps_eps_p p)) i - (if (i <? 3)%Z then 0 else m_mu m * (lget (ps_eps_p p) i - lget ep i)).
Proof.
  intros Hmu Hk T0 p i Hi. rewrite elastic_entry by assumption. unfold p. rewrite (eps_p_tr m eps ep alpha Hmu), T0.
  destruct (step_forms m eps ep alpha Hmu) as (_ & Q & _). destruct (Q i Hi) as (-> & ->).
  generalize (trial m eps ep i / sqrt (frob2 (trial m eps ep))). intros w. unfold dlam. generalize (ftrial m eps ep alpha). intros f.
  unfold trial. rewrite Hk, T0. destruct (ps_nl _); destruct (i <? 3)%Z; field; lra.
Qed.
(** C32: without flow the plastic routine is the linear one *)
Theorem no_flow_linear m eps ep alpha : 0 < m_mu m -> m_k m = m_lambda m + 2 * m_mu m / 3 -> tr ep = 0 ->
  let p := plastic_step m eps ep alpha in ps_nl p = false ->
  forall i, (0 <= i < 6)%Z -> lget (ps_stress p) i = lget (elastic m eps ep) i.
Proof.
  intros Hmu Hk T0 p E i Hi. unfold p. rewrite (stress_law m eps ep alpha Hmu Hk T0 i Hi). fold p.
  destruct (no_flow m eps ep alpha Hmu E) as (_ & X & _). rewrite !elastic_entry by assumption. fold p in X. rewrite X by assumption.
  replace (tr (ps_eps_p p)) with (tr ep) by (symmetry; apply eps_p_tr; assumption). destruct (i <? 3)%Z; ring.
Qed.
