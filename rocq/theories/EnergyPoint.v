(** The incremental energy of a Gauss point: the stress of get_stress3D is its gradient. *)
From Coq Require Import Reals Lra Psatz.
From Verif Require Import Base Scalar AssemblyModel AsmPure AsmRun FemGen FemMat FemPd PlastProps AsmSpec AsmPoint MonoPoint MonoBody.
Open Scope Z_scope.
Open Scope R_scope.

(** deviatoric stress that an elastic step from the plastic strain ep would give (engineering shear) *)
Definition tried (m : material R) (ep e : Z -> R) (i : Z) : R :=
  if (i <? 3)%Z then 2 * m_mu m * ((e i - ep i) - (trace6 e - trace6 ep) / 3) else m_mu m * (e i - ep i).
(** energy of a step of a linear point, of a plastic point: quadratic up to the yield stress, linear beyond *)
Definition elastic_energy (m : material R) (e : Z -> R) : R := dot 6 (hooke m e) e / 2.
Definition flow_energy (m : material R) (ep : Z -> R) (al : R) (e : Z -> R) : R :=
  let q := sqrt (contract6 (tried m ep e) (tried m ep e)) in let r := sqrt (2 / 3) * (m_Sy m + m_Ka m * al) in
  (m_lambda m + 2 * m_mu m / 3) / 2 * (trace6 e * trace6 e) + (if Rle_dec q r then q * q / 2 else r * q - r * r / 2) / (2 * m_mu m).

Lemma tried_trial m (e ep : list R) i : tried m (lget ep) (lget e) i = trial m e ep i.
Proof. unfold tried, trial, trace6, tr. destruct (i <? 3)%Z; [field|reflexivity]. Qed.
Lemma contract_frob s : contract6 s s = frob2 s. Proof. reflexivity. Qed.
Lemma frob2_ext s t : (forall i, s i = t i) -> frob2 s = frob2 t. Proof. intros H. unfold frob2. now rewrite !H. Qed.

(** Huber's function *)
Definition hub (r a : R) : R := if Rle_dec a r then a * a / 2 else r * a - r * r / 2.
Lemma hub_shrink r x c : shrinks r x c -> let a := sqrt (frob2 x) in hub r a = c * (a * a) - (c * a) * (c * a) / 2.
Proof.
  intros (C1 & C2 & C3) a. fold a in C2, C3. unfold hub. pose proof (sqrt_pos (frob2 x)) as A. fold a in A. destruct (Rle_dec a r) as [H|H].
  - destruct (Rlt_dec c 1) as [c1|c1].
    + specialize (C3 c1). assert (c * a = a) by nra. assert (K : (1 - c) * a = 0) by lra. apply Rmult_integral in K. destruct K as [K|K]; [lra|]. rewrite K. lra.
    + replace c with 1 by lra. lra.
  - assert (c < 1) by (destruct (Rlt_dec c 1); [assumption|]; replace c with 1 in * by lra; lra). rewrite <- (C3 H0). lra.
Qed.
Lemma hub_sub r x c y : 0 <= r -> shrinks r x c -> hub r (sqrt (frob2 x)) + c * (tdot x y - frob2 x) <= hub r (sqrt (frob2 y)).
Proof.
  intros Hr Hs. rewrite (hub_shrink r x c Hs). destruct Hs as (C1 & C2 & C3).
  pose proof (tdot_cs x y) as T. pose proof (sqrt_sqrt _ (frob2_nonneg x)) as A2.
  pose proof (sqrt_pos (frob2 x)) as A. pose proof (sqrt_pos (frob2 y)) as B.
  set (a := sqrt (frob2 x)) in *. rewrite <- A2. set (b := sqrt (frob2 y)) in *. set (t := tdot x y) in *. set (p := c * a) in *.
  assert (P : 0 <= p) by (apply Rmult_le_pos; lra).
  assert (M : c * t <= p * b) by (unfold p; rewrite Rmult_assoc; apply Rmult_le_compat_l; lra).
  assert (U : c * (a * a) - p * p / 2 + c * (t - a * a) <= p * b - p * p / 2) by lra.
  eapply Rle_trans; [exact U|]. unfold hub. destruct (Rle_dec b r) as [H|H]; [pose proof (Rle_0_sqr (b - p)) as Q; unfold Rsqr in Q; lra|].
  assert (0 <= (r - p) * (b - (r + p) / 2)) by (apply Rmult_le_pos; lra). lra.
Qed.
Lemma hub_bound r a M : 0 < r -> 0 <= a -> hub r a <= M -> a <= r + M / r + r / 2.
Proof.
  intros Hr Ha. unfold hub. destruct (Rle_dec a r) as [H|H]; intros HM.
  - assert (0 <= M / r). { apply Rmult_le_pos; [|left; now apply Rinv_0_lt_compat]. assert (0 <= a * a) by nra. lra. } lra.
  - apply (Rmult_le_reg_l r); [exact Hr|]. replace (r * (r + M / r + r / 2)) with (r * r + M + r * r / 2) by (field; lra). nra.
Qed.
Lemma hub_nonneg r a : 0 <= r -> 0 <= a -> 0 <= hub r a.
Proof. intros Hr Ha. unfold hub. destruct (Rle_dec a r); nra. Qed.

(** dot of a stress in the form bulk + deviator with a strain *)
Lemma split_dot m k (s E P : Z -> R) t : P 0%Z + P 1%Z + P 2%Z = 0 -> (forall i, (0 <= i < 6)%Z -> s i = (if (i <? 3)%Z then k * t else 0) + P i) -> 0 < m_mu m ->
  dot 6 s E = k * t * trace6 E + tdot P (tried m (fun _ => 0) E) / (2 * m_mu m).
Proof.
  intros H0 Hs Hm. rewrite dot6, !Hs by lia. unfold tdot, tried, trace6. cbn [Z.ltb Z.compare Pos.compare Pos.compare_cont].
  replace (P 2%Z) with (- P 0%Z - P 1%Z) by lra. field. lra.
Qed.
Lemma tried_zero_dev m E : let P := tried m (fun _ => 0) E in P 0%Z + P 1%Z + P 2%Z = 0.
Proof. unfold tried, trace6. cbn [Z.ltb Z.compare Pos.compare Pos.compare_cont]. field. Qed.
Lemma hooke_split m E : 0 < m_mu m -> dot 6 (hooke m E) E = (m_lambda m + 2 * m_mu m / 3) * (trace6 E * trace6 E) + frob2 (tried m (fun _ => 0) E) / (2 * m_mu m).
Proof.
  intros Hm. rewrite dot6. unfold hooke, frob2, tried, trace6. cbn [Z.ltb Z.compare Pos.compare Pos.compare_cont]. field. lra.
Qed.

Section Step.
Variables (m : material R) (ep : list R) (al : R).
Hypotheses (Hmu : 0 < m_mu m) (Hk : 0 < m_k m) (Ek : m_k m = m_lambda m + 2 * m_mu m / 3).
Let r := sqrt (2 / 3) * (m_Sy m + m_Ka m * al).
Lemma flow_forms e : flow_energy m (lget ep) al (lget e) = m_k m / 2 * (tr e * tr e) + hub r (sqrt (frob2 (trial m e ep))) / (2 * m_mu m).
Proof.
  unfold flow_energy. rewrite <- Ek, contract_frob, (frob2_ext _ (trial m e ep)) by (intros; apply tried_trial). reflexivity.
Qed.
(** the stress of a plastic step is a subgradient *)
Lemma flow_sub e f : 0 <= m_Sy m + m_Ka m * al ->
  flow_energy m (lget ep) al (lget e) + dot 6 (lget (ps_stress (plastic_step m e ep al))) (fun i => lget f i - lget e i) <= flow_energy m (lget ep) al (lget f).
Proof.
  intros Hy. assert (Hr : 0 <= r) by (apply Rmult_le_pos; [apply sqrt_pos|exact Hy]).
  destruct (factor_ok m e ep al Hmu Hy) as (Sh & Fs). fold r in Sh. set (c := factor m e ep al) in *.
  pose proof (hub_sub r _ c (trial m f ep) Hr Sh) as H. rewrite !flow_forms.
  set (x := trial m e ep) in *. set (y := trial m f ep) in *.
  rewrite (split_dot m (m_k m) _ _ (fun i => c * x i) (tr e)).
  - assert (Et : tdot (fun i => c * x i) (tried m (fun _ => 0) (fun i => lget f i - lget e i)) = c * (tdot x y - frob2 x)).
    { unfold tdot, frob2, tried, x, y, trial, trace6, tr. cbn [Z.ltb Z.compare Pos.compare Pos.compare_cont]. field. }
    rewrite Et. unfold trace6. fold (tr e).
    assert (Q : m_k m / 2 * (tr e * tr e) + m_k m * tr e * (lget f 0 - lget e 0 + (lget f 1 - lget e 1) + (lget f 2 - lget e 2)) <= m_k m / 2 * (tr f * tr f)).
    { replace (lget f 0 - lget e 0 + (lget f 1 - lget e 1) + (lget f 2 - lget e 2)) with (tr f - tr e) by (unfold tr; ring).
      pose proof (Rmult_le_pos _ _ (Rlt_le _ _ Hk) (Rle_0_sqr (tr f - tr e))) as N. unfold Rsqr in N. lra. }
    assert (W : hub r (sqrt (frob2 x)) / (2 * m_mu m) + c * (tdot x y - frob2 x) / (2 * m_mu m) <= hub r (sqrt (frob2 y)) / (2 * m_mu m)).
    { unfold Rdiv. rewrite <- Rmult_plus_distr_r. apply Rmult_le_compat_r; [left; apply Rinv_0_lt_compat; lra|exact H]. }
    lra.
  - replace (c * x 0%Z + c * x 1%Z + c * x 2%Z) with (c * (x 0%Z + x 1%Z + x 2%Z)) by ring. unfold x. rewrite trial_tr. ring.
  - exact Fs.
  - exact Hmu.
Qed.
Lemma flow_nonneg e : 0 <= m_Sy m + m_Ka m * al -> 0 <= flow_energy m (lget ep) al (lget e).
Proof.
  intros Hy. assert (Hr : 0 <= r) by (apply Rmult_le_pos; [apply sqrt_pos|exact Hy]). rewrite flow_forms. apply Rplus_le_le_0_compat.
  - apply Rmult_le_pos; [lra|apply Rle_0_sqr].
  - apply Rmult_le_pos; [apply hub_nonneg; [exact Hr|apply sqrt_pos]|left; apply Rinv_0_lt_compat; lra].
Qed.
End Step.

(** ** energies bound strains *)
Lemma sq_bound k t M : 0 < k -> 0 <= M -> k / 2 * (t * t) <= M -> Rabs t <= 1 + 2 * M / k.
Proof.
  intros Hk HM H. assert (Q : t * t <= 2 * M / k). { apply (Rmult_le_reg_l (k / 2)); [lra|]. replace (k / 2 * (2 * M / k)) with M by (field; lra). exact H. }
  assert (0 <= 2 * M / k) by (pose proof (Rle_0_sqr t); unfold Rsqr in *; lra).
  set (b := 2 * M / k) in *. unfold Rabs. destruct (Rcase_abs t); nra.
Qed.
Lemma frob_comp s i : (0 <= i < 6)%Z -> Rabs (s i) <= sqrt (frob2 s).
Proof.
  intros Hi. rewrite <- sqrt_Rsqr_abs. apply sqrt_le_1_alt. unfold Rsqr, frob2.
  pose proof (Rle_0_sqr (s 0%Z)); pose proof (Rle_0_sqr (s 1%Z)); pose proof (Rle_0_sqr (s 2%Z));
    pose proof (Rle_0_sqr (s 3%Z)); pose proof (Rle_0_sqr (s 4%Z)); pose proof (Rle_0_sqr (s 5%Z)); unfold Rsqr in *.
  pattern i. apply case6; [exact Hi|..]; lra.
Qed.
Lemma strain_bound m (ep e : Z -> R) q T i : 0 < m_mu m -> sqrt (frob2 (tried m ep e)) <= q -> Rabs (trace6 e) <= T -> (0 <= i < 6)%Z ->
  Rabs (e i) <= q / m_mu m + T + Rabs (ep i) + Rabs (trace6 ep).
Proof.
  intros Hm Hq HT Hi. pose proof (frob_comp (tried m ep e) i Hi) as C. pose proof (Rabs_pos (tried m ep e i)).
  assert (Q : Rabs (tried m ep e i / m_mu m) <= q / m_mu m).
  { unfold Rdiv. rewrite Rabs_mult, (Rabs_right (/ m_mu m)) by (apply Rle_ge; left; now apply Rinv_0_lt_compat).
    apply Rmult_le_compat_r; [left; now apply Rinv_0_lt_compat|lra]. }
  pose proof (Rabs_pos (trace6 ep)) as Z1. pose proof (Rabs_pos (trace6 e)) as Z2. pose proof (Rabs_pos (ep i)) as Z3.
  set (d := tried m ep e i / m_mu m) in *. pose proof (Rabs_pos d) as Z4.
  destruct (i <? 3)%Z eqn:L.
  - assert (E : e i = d / 2 + trace6 e / 3 + ep i - trace6 ep / 3) by (unfold d, tried; rewrite L; field; lra).
    rewrite E. unfold Rabs in *. repeat (destruct Rcase_abs); lra.
  - assert (E : e i = d + ep i) by (unfold d, tried; rewrite L; field; lra).
    rewrite E. unfold Rabs in *. repeat (destruct Rcase_abs); lra.
Qed.
Lemma elastic_bound m M : 0 < m_mu m -> 0 < m_lambda m + 2 * m_mu m / 3 -> 0 <= M ->
  exists C, forall e, elastic_energy m e <= M -> forall i, (0 <= i < 6)%Z -> Rabs (e i) <= C.
Proof.
  intros Hm Hk HM. set (k := m_lambda m + 2 * m_mu m / 3) in *.
  exists ((1 + 4 * m_mu m * M) / m_mu m + (1 + 2 * M / k) + Rabs 0 + Rabs (trace6 (fun _ => 0))). intros e He i Hi.
  unfold elastic_energy in He. rewrite hooke_split in He by exact Hm. fold k in He.
  pose proof (Rle_0_sqr (trace6 e)) as T0. unfold Rsqr in T0. pose proof (frob2_nonneg (tried m (fun _ => 0) e)) as F0.
  set (fr := frob2 (tried m (fun _ => 0) e)) in *.
  assert (0 <= fr / (2 * m_mu m)) by (apply Rmult_le_pos; [exact F0|left; apply Rinv_0_lt_compat; lra]).
  assert (0 <= k * (trace6 e * trace6 e)) by (apply Rmult_le_pos; lra).
  apply (strain_bound m (fun _ => 0)); [exact Hm| |apply sq_bound; [exact Hk|exact HM|lra]|exact Hi]. fold fr.
  assert (G : fr <= 4 * m_mu m * M).
  { assert (I : fr / (2 * m_mu m) <= 2 * M) by lra. apply (Rmult_le_reg_r (/ (2 * m_mu m))); [apply Rinv_0_lt_compat; lra|].
    replace (4 * m_mu m * M * / (2 * m_mu m)) with (2 * M) by (field; lra). exact I. }
  pose proof (sqrt_sqrt fr F0). pose proof (sqrt_pos fr). nra.
Qed.
Lemma flow_bound m ep al M : 0 < m_mu m -> 0 < m_lambda m + 2 * m_mu m / 3 -> 0 < m_Sy m + m_Ka m * al -> 0 <= M ->
  exists C, forall e, flow_energy m ep al e <= M -> forall i, (0 <= i < 6)%Z -> Rabs (e i) <= C.
Proof.
  intros Hm Hk Hy HM. set (k := m_lambda m + 2 * m_mu m / 3) in *. set (r := sqrt (2 / 3) * (m_Sy m + m_Ka m * al)).
  assert (Hr : 0 < r) by (apply Rmult_lt_0_compat; [apply sqrt_lt_R0; lra|exact Hy]).
  assert (HC : forall i, exists C, forall e, flow_energy m ep al e <= M -> (0 <= i < 6)%Z -> Rabs (e i) <= C).
  { intros i. exists ((r + 2 * m_mu m * M / r + r / 2) / m_mu m + (1 + 2 * M / k) + Rabs (ep i) + Rabs (trace6 ep)). intros e He Hi.
    unfold flow_energy in He. fold k r in He. rewrite contract_frob in He. set (q := sqrt (frob2 (tried m ep e))) in *.
    pose proof (sqrt_pos (frob2 (tried m ep e))) as Q0. fold q in Q0. change (if Rle_dec q r then q * q / 2 else r * q - r * r / 2) with (hub r q) in He.
    pose proof (hub_nonneg r q (Rlt_le _ _ Hr) Q0) as H0. pose proof (Rle_0_sqr (trace6 e)) as T0. unfold Rsqr in T0.
    assert (0 <= hub r q / (2 * m_mu m)) by (apply Rmult_le_pos; [exact H0|left; apply Rinv_0_lt_compat; lra]).
    assert (0 <= k / 2 * (trace6 e * trace6 e)) by (apply Rmult_le_pos; lra).
    apply (strain_bound m ep); [exact Hm| |apply sq_bound; [exact Hk|exact HM|lra]|exact Hi]. fold q.
    apply hub_bound; [exact Hr|exact Q0|]. apply (Rmult_le_reg_r (/ (2 * m_mu m))); [apply Rinv_0_lt_compat; lra|].
    replace (2 * m_mu m * M * / (2 * m_mu m)) with M by (field; lra). unfold Rdiv in *. lra. }
  destruct (HC 0%Z) as (C0 & H0), (HC 1%Z) as (C1 & H1), (HC 2%Z) as (C2 & H2), (HC 3%Z) as (C3 & H3), (HC 4%Z) as (C4 & H4), (HC 5%Z) as (C5 & H5).
  exists (Rabs C0 + Rabs C1 + Rabs C2 + Rabs C3 + Rabs C4 + Rabs C5). intros e He i Hi.
  pose proof (Rabs_pos C0); pose proof (Rabs_pos C1); pose proof (Rabs_pos C2); pose proof (Rabs_pos C3); pose proof (Rabs_pos C4); pose proof (Rabs_pos C5).
  specialize (H0 e He ltac:(lia)). specialize (H1 e He ltac:(lia)). specialize (H2 e He ltac:(lia)). specialize (H3 e He ltac:(lia)). specialize (H4 e He ltac:(lia)). specialize (H5 e He ltac:(lia)).
  pose proof (Rle_abs C0); pose proof (Rle_abs C1); pose proof (Rle_abs C2); pose proof (Rle_abs C3); pose proof (Rle_abs C4); pose proof (Rle_abs C5).
  pattern i. apply case6; [exact Hi|..]; lra.
Qed.
Lemma elastic_sub m e f : 0 < m_mu m -> 0 < m_lambda m + 2 * m_mu m / 3 ->
  elastic_energy m e + dot 6 (hooke m e) (fun i => f i - e i) <= elastic_energy m f.
Proof.
  intros Hm Hk. pose proof (hooke_split m (fun i => f i - e i) Hm) as H.
  assert (N : 0 <= dot 6 (hooke m (fun i => f i - e i)) (fun i => f i - e i)).
  { rewrite H. apply Rplus_le_le_0_compat; [apply Rmult_le_pos; [lra|apply Rle_0_sqr]|].
    apply Rmult_le_pos; [apply frob2_nonneg|left; apply Rinv_0_lt_compat; lra]. }
  assert (E : dot 6 (hooke m (fun i => f i - e i)) (fun i => f i - e i) = 2 * (elastic_energy m f - elastic_energy m e - dot 6 (hooke m e) (fun i => f i - e i))).
  { unfold elastic_energy. rewrite !dot6. unfold hooke. cbn [Z.ltb Z.compare Pos.compare Pos.compare_cont]. field. }
  lra.
Qed.
Lemma elastic_nonneg m e : 0 < m_mu m -> 0 < m_lambda m + 2 * m_mu m / 3 -> 0 <= elastic_energy m e.
Proof.
  intros Hm Hk. unfold elastic_energy. rewrite hooke_split by assumption. apply Rmult_le_pos; [|lra].
  apply Rplus_le_le_0_compat; [apply Rmult_le_pos; [lra|apply Rle_0_sqr]|]. apply Rmult_le_pos; [apply frob2_nonneg|left; apply Rinv_0_lt_compat; lra].
Qed.
