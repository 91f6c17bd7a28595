(** The tangents in IEEE doubles. *)
From Coq Require Import Reals Lra ZifyBool ZifyNat.
From Flocq Require Import BinarySingleNaN.
From Verif Require Import Base Scalar LinProps MonoBody ConvexMin EllSpec EllInit EllModel EllAsm EllFinal Grid CgPure CgProps AssemblyModel AsmPure AsmBnd AsmRun AsmSpec AsmProps AsmEquil AsmPoint FemGen FemAve FemRhs FemEquil AsmMat FemPd
  MicroModel OutputModel NewtonBase ApiBase ApiRun ApiHist Build ApiExact ApiSpec ApiProps Tangent KornProps EffBound BinInst FloatSum FloatCg FloatFem FloatBody FloatMat FloatNewton FloatBnd FloatShadow FloatAnswer FloatFin FloatSize FloatObj FloatRun.
Open Scope Z_scope.
Open Scope R_scope.
Notation val := (@B2R 53 1024).

(** ** The step of the difference quotients *)
Lemma step_val : fin (d_eps : flt) /\ 99 / 10000000000 <= val d_eps <= 101 / 10000000000 /\ Rabs (val d_eps - 1 / 100000000) <= uro * (1 / 100000000) + eta.
Proof.
  unfold d_eps, dec. destruct (int_exact 1 ltac:(lia)) as (F1 & E1). destruct (int_exact (10 ^ 8) ltac:(lia)) as (F2 & E2).
  assert (F : fin (odiv (ofZ 1) (ofZ (10 ^ 8)) : flt)) by (vm_compute; reflexivity). split; [exact F|].
  pose proof (div_error _ _ F F2) as Q. rewrite E1, E2 in Q. change (IZR (10 ^ 8)) with 100000000 in Q. rewrite (Rabs_pos_eq (1 / 100000000)) in Q by lra.
  split; [|exact Q]. pose proof eta_pos as Pe. assert (Ee : eta <= / 1000000000000). { unfold eta. apply Rle_trans with (p2 (-40)); [apply Raux.bpow_le; lia|]. change (p2 (-40)) with (/ IZR (2 ^ 40)). apply Rinv_le_contravar; [lra|]. change (2 ^ 40)%Z with 1099511627776%Z. lra. }
  rewrite uro_val in Q. set (z := val (odiv (ofZ 1) (ofZ (10 ^ 8)))) in *. unfold Rabs in Q. destruct (Rcase_abs _) in Q; lra.
Qed.
Lemma step_p2 : p2 (-27) <= val d_eps.
Proof. destruct step_val as (_ & B & _). change (p2 (-27)) with (/ IZR (2 ^ 27)). change (2 ^ 27)%Z with 134217728%Z. lra. Qed.
Lemma gam_1 : gam 1 = uro.
Proof. unfold gam. ring. Qed.
Lemma gam_2 : gam 2 = 2 * uro + uro * uro.
Proof. unfold gam. ring. Qed.

(** ** The strains with the step added *)
Lemma bump_in n (e : list flt) i v em : (0 <= i < n)%Z -> (forall v, (0 <= v < n)%Z -> fin (lget e v) /\ Rabs (val (lget e v)) <= em) -> 0 <= em <= p2 300 ->
  (0 <= v < n)%Z -> fin (lget (bump n e i) v) /\ Rabs (val (lget (bump n e i) v)) <= (1 + uro) * (em + val d_eps) /\
    Rabs (val (lget (bump n e i) v) - (val (lget e v) + (if (v =? i)%Z then val d_eps else 0))) <= (if (v =? i)%Z then uro * (em + val d_eps) else 0).
Proof.
  intros Hi He Hem Hv. unfold bump. rewrite lget_ltab by exact Hv. destruct (He v Hv) as (Fv & Bv). destruct step_val as (Fd & Bd & _). pose proof uro_pos as Pu.
  destruct (v =? i)%Z.
  - assert (B0 : Rabs (val (lget e v) + val d_eps) <= em + val d_eps). { eapply Rle_trans; [apply Rabs_triang|]. rewrite (Rabs_pos_eq (val d_eps)) by lra. lra. }
    assert (Fs : fin (oadd (lget e v) d_eps)).
    { apply (bd_add 300); [split; [exact Fv|lra]|split; [exact Fd|]|lia]. rewrite Rabs_pos_eq by lra. apply Rle_trans with (p2 0); [change (p2 0) with 1; lra|apply Raux.bpow_le; lia]. }
    pose proof (add_error _ _ Fs) as Q. split; [exact Fs|]. assert (Q2 : uro * Rabs (val (lget e v) + val d_eps) <= uro * (em + val d_eps)) by (apply Rmult_le_compat_l; lra). split; [|lra].
    replace (val (oadd (lget e v) d_eps)) with (val (oadd (lget e v) d_eps) - (val (lget e v) + val d_eps) + (val (lget e v) + val d_eps)) by ring. eapply Rle_trans; [apply Rabs_triang|]. lra.
  - split; [exact Fv|]. split; [|rewrite Rplus_0_r, Rminus_diag_eq, Rabs_R0 by reflexivity; lra].
    assert (0 <= uro * (em + val d_eps)) by (apply Rmult_le_pos; lra). lra.
Qed.
Lemma bump_out n (e : list flt) i v : (n <= v)%Z -> (0 <= n)%Z -> lget (bump n e i) v = ofZ 0.
Proof. intros Hv Hn. unfold bump, lget, ltab. apply nth_overflow. rewrite map_length, length_zrange. lia. Qed.
Lemma bump_all n (e : list flt) i em : (0 <= i < n)%Z -> (forall v, (0 <= v < n)%Z -> fin (lget e v) /\ Rabs (val (lget e v)) <= em) -> 0 <= em <= p2 300 ->
  forall v, (0 <= v < 6)%Z -> fin (lget (bump n e i) v) /\ Rabs (val (lget (bump n e i) v)) <= (1 + uro) * (em + val d_eps).
Proof.
  intros Hi He Hem v Hv. destruct (Z_lt_ge_dec v n) as [A|A]; [destruct (bump_in n e i v em Hi He Hem ltac:(lia)) as (Q1 & Q2 & _); split; assumption|].
  rewrite bump_out by lia. split; [exact fin_0|]. rewrite val_0, Rabs_R0. destruct step_val as (_ & B & _). pose proof uro_pos. apply Rmult_le_pos; lra.
Qed.

(** ** One entry of a tangent *)
Lemma dot_pick n (K : Z -> R) i x : (0 <= i < n)%Z -> rsum (zrange 0 n) (fun v => K v * (if (v =? i)%Z then x else 0)) = K i * x.
Proof.
  intros Hi. rewrite (rsum_single _ _ i); [rewrite Z.eqb_refl; reflexivity|apply NoDup_zrange|now apply in_zrange|].
  intros v _ Hn. destruct (Z.eqb_spec v i); [contradiction|ring].
Qed.
Lemma quot_near (s0 s1 : flt) : bd 877 s0 -> bd 877 s1 -> let c := odiv (osub s1 s0) d_eps in let q := (val s1 - val s0) / val d_eps in
  fin c /\ Rabs (val c - q) <= gam 2 * Rabs q + eta.
Proof.
  intros B0 B1 c q. destruct step_val as (Fd & Bd & _). pose proof (bd_sub 877 _ _ B1 B0 ltac:(lia)) as Bs. pose proof (sub_error _ _ (proj1 Bs)) as Es.
  assert (Pd : 0 < val d_eps) by lra.
  assert (Bc : bd (877 + 2 - -27 + 1) c). { apply bd_div; [exact Bs|exact Fd| |lia]. rewrite Rabs_pos_eq by lra. exact step_p2. }
  split; [exact (proj1 Bc)|]. pose proof (div_error _ _ (proj1 Bc) Fd) as Ec. fold c in Ec.
  assert (Eq : Rabs (val (osub s1 s0) / val d_eps - q) <= uro * Rabs q).
  { unfold q. replace (val (osub s1 s0) / val d_eps - (val s1 - val s0) / val d_eps) with ((val (osub s1 s0) - (val s1 - val s0)) / val d_eps) by (field; lra).
    unfold Rdiv. rewrite !Rabs_mult, <- Rmult_assoc. apply Rmult_le_compat_r; [apply Rabs_pos|exact Es]. }
  set (t := val (osub s1 s0) / val d_eps) in *. rewrite gam_2. pose proof uro_pos. pose proof (Rabs_pos q).
  assert (Ht : Rabs t <= (1 + uro) * Rabs q). { replace t with (t - q + q) by ring. eapply Rle_trans; [apply Rabs_triang|]. lra. }
  assert (uro * Rabs t <= uro * ((1 + uro) * Rabs q)) by (apply Rmult_le_compat_l; lra).
  replace (val c - q) with (val c - t + (t - q)) by ring. eapply Rle_trans; [apply Rabs_triang|]. lra.
Qed.
Lemma col_near n (K : Z -> R) (e : list flt) i (s0 s1 : flt) ly g0 g1 em : (0 <= i < n)%Z -> 0 < ly -> (forall v, (0 <= v < n)%Z -> fin (lget e v) /\ Rabs (val (lget e v)) <= em) -> 0 <= em <= p2 300 ->
  bd 877 s0 -> bd 877 s1 -> ly * Rabs (val s0 - dot n K (fun v => val (lget e v))) <= g0 -> ly * Rabs (val s1 - dot n K (fun v => val (lget (bump n e i) v))) <= g1 ->
  let c := odiv (osub s1 s0) d_eps in let d := val d_eps in
  fin c /\ ly * Rabs (val c - K i) <= (1 + gam 2) / d * (g0 + g1 + ly * (Rabs (K i) * (uro * (em + d)))) + ly * (gam 2 * Rabs (K i) + eta).
Proof.
  intros Hi Hl He Hem B0 B1 Q0 Q1 c d. destruct (quot_near s0 s1 B0 B1) as (Fc & Ec). split; [exact Fc|]. fold c d in Ec. destruct step_val as (Fd & Bd & _). fold d in Bd. set (q := (val s1 - val s0) / d) in *.
  assert (Pd : 0 < d) by lra. set (e' := bump n e i) in *.
  assert (Dd : Rabs (dot n K (fun v => val (lget e' v)) - dot n K (fun v => val (lget e v)) - K i * d) <= Rabs (K i) * (uro * (em + d))).
  { unfold dot. rewrite <- (dot_pick n K i d Hi), <- !rsum_minus.
    rewrite (rsum_single _ _ i); [|apply NoDup_zrange|now apply in_zrange|].
    - rewrite Z.eqb_refl. destruct (bump_in n e i i em Hi He Hem Hi) as (_ & _ & Q). rewrite Z.eqb_refl in Q. fold e' d in Q.
      replace (K i * val (lget e' i) - K i * val (lget e i) - K i * d) with (K i * (val (lget e' i) - (val (lget e i) + d))) by ring. rewrite Rabs_mult. apply Rmult_le_compat_l; [apply Rabs_pos|exact Q].
    - intros v Hv Hn. apply in_zrange in Hv. destruct (bump_in n e i v em Hi He Hem Hv) as (_ & _ & Q). destruct (Z.eqb_spec v i); [contradiction|]. fold e' in Q. rewrite Rplus_0_r in Q.
      assert (Z0 : val (lget e' v) = val (lget e v)) by (unfold Rabs in Q; destruct (Rcase_abs _) in Q; lra). rewrite Z0. ring. }
  set (B := g0 + g1 + ly * (Rabs (K i) * (uro * (em + d)))).
  assert (Hq : ly * Rabs (q - K i) <= B / d).
  { assert (Eq : q - K i = ((val s1 - dot n K (fun v => val (lget e' v))) - (val s0 - dot n K (fun v => val (lget e v))) + (dot n K (fun v => val (lget e' v)) - dot n K (fun v => val (lget e v)) - K i * d)) / d) by (unfold q; field; lra).
    rewrite Eq. unfold Rdiv. rewrite Rabs_mult, (Rabs_pos_eq (/ d)) by (left; now apply Rinv_0_lt_compat). rewrite <- Rmult_assoc. apply Rmult_le_compat_r; [left; now apply Rinv_0_lt_compat|].
    unfold B. set (x1 := val s1 - _) in *. set (x0 := val s0 - _) in *. set (x2 := dot n K _ - _ - _) in *.
    assert (T : Rabs (x1 - x0 + x2) <= Rabs x1 + Rabs x0 + Rabs x2). { eapply Rle_trans; [apply Rabs_triang|]. apply Rplus_le_compat_r. unfold Rminus. eapply Rle_trans; [apply Rabs_triang|]. rewrite Rabs_Ropp. lra. }
    apply Rle_trans with (ly * (Rabs x1 + Rabs x0 + Rabs x2)); [apply Rmult_le_compat_l; lra|]. assert (ly * Rabs x2 <= ly * (Rabs (K i) * (uro * (em + d)))) by (apply Rmult_le_compat_l; lra). lra. }
  assert (Hk : Rabs q <= Rabs (K i) + Rabs (q - K i)). { replace q with (K i + (q - K i)) at 1 by ring. apply Rabs_triang. }
  pose proof (gam_pos 2) as Pg. assert (G1 : gam 2 * Rabs q <= gam 2 * (Rabs (K i) + Rabs (q - K i))) by (apply Rmult_le_compat_l; lra).
  assert (T : Rabs (val c - K i) <= gam 2 * (Rabs (K i) + Rabs (q - K i)) + eta + Rabs (q - K i)). { replace (val c - K i) with (val c - q + (q - K i)) by ring. eapply Rle_trans; [apply Rabs_triang|]. lra. }
  apply Rle_trans with (ly * (gam 2 * (Rabs (K i) + Rabs (q - K i)) + eta + Rabs (q - K i))); [apply Rmult_le_compat_l; lra|].
  assert (gam 2 * (ly * Rabs (q - K i)) <= gam 2 * (B / d)) by (apply Rmult_le_compat_l; lra).
  replace ((1 + gam 2) / d * B) with (B / d + gam 2 * (B / d)) by (field; lra). lra.
Qed.
Lemma zero_step : val (oadd (ofZ 0) d_eps) = val d_eps.
Proof.
  assert (E : B2SF (oadd (ofZ 0) d_eps : flt) = B2SF (d_eps : flt)) by (vm_compute; reflexivity). rewrite <- !SF2R_B2SF. now rewrite E.
Qed.
(** the constructor's tangent divides the stresses themselves *)
Lemma lin_near n (K : Z -> R) i (s : flt) ly g : (0 <= i < n)%Z -> 0 < ly -> bd 877 s -> ly * Rabs (val s - dot n K (fun v => val (lget (bump n (zeros n) i) v))) <= g ->
  let c := odiv s d_eps in let d := val d_eps in bd 905 c /\ ly * Rabs (val c - K i) <= (1 + uro) / d * g + ly * (uro * Rabs (K i) + eta).
Proof.
  intros Hi Hl B Q c d. destruct step_val as (Fd & Bd & _). fold d in Bd. assert (Pd : 0 < d) by lra.
  assert (Bc : bd (877 - -27 + 1) c). { apply bd_div; [exact B|exact Fd| |lia]. rewrite Rabs_pos_eq by (fold d; lra). exact step_p2. }
  split; [exact Bc|]. pose proof (div_error _ _ (proj1 Bc) Fd) as Ec. fold c d in Ec. set (q := val s / d) in *.
  assert (E : dot n K (fun v => val (lget (bump n (zeros n) i) v)) = K i * d).
  { unfold dot. rewrite <- (dot_pick n K i d Hi). apply rsum_ext. intros v Hv. apply in_zrange in Hv. f_equal. unfold bump. rewrite lget_ltab by exact Hv. assert (Z0 : lget (zeros n) v = (ofZ 0 : flt)) by (unfold zeros; now rewrite lget_ltab).
    rewrite Z0. destruct (v =? i)%Z; [|exact val_0]. exact zero_step. }
  rewrite E in Q. assert (Hq : ly * Rabs (q - K i) <= g / d).
  { assert (Eq : q - K i = (val s - K i * d) / d) by (unfold q; field; lra). rewrite Eq. unfold Rdiv. rewrite Rabs_mult, (Rabs_pos_eq (/ d)) by (left; now apply Rinv_0_lt_compat). rewrite <- Rmult_assoc. apply Rmult_le_compat_r; [left; now apply Rinv_0_lt_compat|exact Q]. }
  assert (Hk : Rabs q <= Rabs (K i) + Rabs (q - K i)). { replace q with (K i + (q - K i)) at 1 by ring. apply Rabs_triang. }
  pose proof uro_pos as Pg. assert (G1 : uro * Rabs q <= uro * (Rabs (K i) + Rabs (q - K i))) by (apply Rmult_le_compat_l; lra).
  assert (T : Rabs (val c - K i) <= uro * (Rabs (K i) + Rabs (q - K i)) + eta + Rabs (q - K i)). { replace (val c - K i) with (val c - q + (q - K i)) by ring. eapply Rle_trans; [apply Rabs_triang|]. lra. }
  apply Rle_trans with (ly * (uro * (Rabs (K i) + Rabs (q - K i)) + eta + Rabs (q - K i))); [apply Rmult_le_compat_l; lra|].
  assert (uro * (ly * Rabs (q - K i)) <= uro * (g / d)) by (apply Rmult_le_compat_l; lra).
  replace ((1 + uro) / d * g) with (g / d + uro * (g / d)) by (field; lra). lra.
Qed.
(** ** A stress predicted with a tangent near K *)
Lemma pred_near n (c : Z -> flt) (K : Z -> R) (e : Z -> flt) (del : Z -> R) ly em : (0 <= n <= 6)%Z -> 0 < ly -> 0 <= em <= p2 60 ->
  (forall j, (0 <= j < n)%Z -> bd 905 (c j) /\ ly * Rabs (val (c j) - K j) <= del j) -> (forall j, (0 <= j < n)%Z -> fin (e j) /\ Rabs (val (e j)) <= em) ->
  let s := sumf (zrange 0 n) (fun j => omul (c j) (e j)) in
  fin s /\ ly * Rabs (val s - dot n K (fun j => val (e j))) <= (1 + gam 7) * (em * rsum (zrange 0 n) del) + gam 7 * (ly * (em * rsum (zrange 0 n) (fun j => Rabs (K j)) + 6 * tiny)).
Proof.
  intros Hn Hl Hem Hc He s.
  assert (Bs : bd (966 + 3 + 1) s).
  { apply (bd_sum 966 3); [|rewrite length_zrange; lia|rewrite length_zrange; change (2 ^ 3)%Z with 8%Z; lia|lia|lia]. intros j Hj. apply in_zrange in Hj. destruct (Hc j Hj) as (B & _). destruct (He j Hj) as (F & Q).
    exact (bd_mul 905 60 _ _ B (conj F (Rle_trans _ _ _ Q (proj2 Hem))) ltac:(lia)). }
  split; [exact (proj1 Bs)|]. destruct (dot_near (zrange 0 n) c e (proj1 Bs)) as (Q & _). fold s in Q.
  assert (Ln : (S (length (zrange 0 n)) <= 7)%nat) by (rewrite length_zrange; lia). pose proof (gam_le _ _ Ln) as Lg. pose proof (gam_pos (S (length (zrange 0 n)))) as P0. pose proof (gam_pos 7) as P7.
  assert (Sc : rsum (zrange 0 n) (fun j => Rabs (val (c j)) * Rabs (val (e j))) <= em * rsum (zrange 0 n) (fun j => Rabs (K j)) + em * rsum (zrange 0 n) (fun j => Rabs (val (c j) - K j))).
  { rewrite <- Rmult_plus_distr_l, <- rsum_plus, <- rsum_scal. apply rsum_le. intros j Hj. apply in_zrange in Hj. destruct (He j Hj) as (_ & Q2). rewrite (Rmult_comm em).
    apply Rmult_le_compat; try apply Rabs_pos; [|exact Q2]. replace (val (c j)) with (K j + (val (c j) - K j)) at 1 by ring. apply Rabs_triang. }
  assert (Sd : ly * rsum (zrange 0 n) (fun j => Rabs (val (c j) - K j)) <= rsum (zrange 0 n) del).
  { rewrite <- rsum_scal. apply rsum_le. intros j Hj. apply in_zrange in Hj. exact (proj2 (Hc j Hj)). }
  assert (De : Rabs (rsum (zrange 0 n) (fun j => val (c j) * val (e j)) - dot n K (fun j => val (e j))) <= em * rsum (zrange 0 n) (fun j => Rabs (val (c j) - K j))).
  { unfold dot. rewrite <- rsum_minus, <- rsum_scal. eapply Rle_trans; [apply rsum_abs|]. apply rsum_le. intros j Hj. apply in_zrange in Hj. destruct (He j Hj) as (_ & Q2).
    replace (val (c j) * val (e j) - K j * val (e j)) with ((val (c j) - K j) * val (e j)) by ring. rewrite Rabs_mult, (Rmult_comm em). apply Rmult_le_compat_l; [apply Rabs_pos|exact Q2]. }
  set (SD := rsum (zrange 0 n) (fun j => Rabs (val (c j) - K j))) in *. set (SK := rsum (zrange 0 n) (fun j => Rabs (K j))) in *. set (SL := rsum (zrange 0 n) del) in *.
  set (SC := rsum (zrange 0 n) (fun j => val (c j) * val (e j))) in *. set (SA := rsum (zrange 0 n) (fun j => Rabs (val (c j)) * Rabs (val (e j)))) in *. set (DD := dot n K (fun j => val (e j))) in *.
  assert (Il : INR (length (zrange 0 n)) <= 6). { rewrite length_zrange, INR_IZR_INZ. apply IZR_le. lia. }
  pose proof tiny_pos as Pt. assert (PK : 0 <= SK) by (apply rsum_nonneg; intros; apply Rabs_pos). assert (PD : 0 <= SD) by (apply rsum_nonneg; intros; apply Rabs_pos).
  assert (PA : 0 <= SA) by (apply rsum_nonneg; intros; apply Rmult_le_pos; apply Rabs_pos).
  assert (It : INR (length (zrange 0 n)) * tiny <= 6 * tiny) by (apply Rmult_le_compat_r; lra). assert (I0 : 0 <= INR (length (zrange 0 n)) * tiny) by (apply Rmult_le_pos; [apply pos_INR|lra]).
  assert (Q3 : Rabs (val s - SC) <= gam 7 * (em * SK + em * SD + 6 * tiny)).
  { eapply Rle_trans; [exact Q|]. apply Rmult_le_compat; lra. }
  assert (T : Rabs (val s - DD) <= gam 7 * (em * SK + em * SD + 6 * tiny) + em * SD). { replace (val s - DD) with (val s - SC + (SC - DD)) by ring. eapply Rle_trans; [apply Rabs_triang|]. lra. }
  apply Rle_trans with (ly * (gam 7 * (em * SK + em * SD + 6 * tiny) + em * SD)); [apply Rmult_le_compat_l; lra|].
  assert (X : (1 + gam 7) * (em * (ly * SD)) <= (1 + gam 7) * (em * SL)) by (apply Rmult_le_compat_l; [lra|apply Rmult_le_compat_l; lra]).
  lra.
Qed.

(** ** Columns of the constructor's tangent, in any arithmetic *)
Lemma any_columns {T} `{Ops T} fuel orc (j : junk T) dim nx ny nz mtype mp mt ps o : valid_args dim nx ny nz mtype mp mt ps -> total_junk j ->
  construct fuel orc j dim [nx; ny; nz] mtype mp mt ps = Ok o ->
  forall i, (0 <= i < nvoi (o_env o))%Z -> exists w w' nl it er s, wok (o_env o) w /\
    respond fuel (orc i) (o_env o) (bump (nvoi (o_env o)) (zeros (nvoi (o_env o))) i) w = Ok (w', nl, it, er, s) /\
    forall v, (0 <= v < nvoi (o_env o))%Z -> aget (o_ctan o) (v * nvoi (o_env o) + i) = Some (odiv (lget s v) d_eps).
Proof.
  intros A J E. pose proof (construct_ok fuel orc j dim nx ny nz mtype mp mt ps A J) as Q. rewrite E in Q.
  destruct Q as (F & (tol & Et & EV) & _ & _ & _ & A1 & EA & Ec). pose proof (ok_sane _ (proj1 F)) as Sv.
  match type of Ec with calc_ctan_lin _ _ _ ?w0 _ = _ => set (w := w0) in *; assert (W : wfull (o_env o) w) end.
  { assert (Fo : EllFinal.full (alloc (j_vold j) (nvars (o_env o))) (nvars (o_env o))) by exact (alloc_full (j_vold j) _ (tj_old _ J)).
    split; [|split; [exact Fo|exact (alloc_full (j_vnew j) _ (tj_new _ J))]].
    constructor; cbn [w w_u w_du w_b w_A w_vold w_vnew]; try reflexivity.
    - exact (alloc_full (j_u j) _ (tj_u _ J)).
    - unfold is_mat. rewrite (eo_dim _ _ _ _ _ _ _ _ _ _ EV), (eo_nx _ _ _ _ _ _ _ _ _ _ EV), (eo_ny _ _ _ _ _ _ _ _ _ _ EV), (eo_nz _ _ _ _ _ _ _ _ _ _ EV).
      destruct (dim =? 2)%Z; exists A1, (e_vals A1); (split; [exact EA|split; [reflexivity|now destruct A1]]).
    - intros e g k He Hg Hk _. apply (proj2 Fo). pose proof (nvars_eq (o_env o)) as Q. unfold intvar_ix. nia. }
  pose proof (ctan_lin_ok (o_env o) fuel orc w (malloc 36) Sv W eq_refl) as X. rewrite Ec in X. destruct X as (_ & _ & _ & _ & X).
  intros i Hi. destruct (X i Hi) as (w1 & w2 & nl & it & er & s & W1 & O1 & R1 & G1). exists w1, w2, nl, it, er, s. split; [exact (proj1 W1)|]. split; [exact R1|exact G1].
Qed.
(** ** The gaps of the entries of the tangents and of the stress of the shortcut *)
Definition tan_gap (ly em k g0 g1 : R) : R := (1 + gam 2) / val d_eps * (g0 + g1 + ly * (k * (uro * (em + val d_eps)))) + ly * (gam 2 * k + eta).
Definition lin_gap (ly k g : R) : R := (1 + uro) / val d_eps * g + ly * (uro * k + eta).
Definition pred_gap (ly em sg sk : R) : R := (1 + gam 7) * (em * sg) + gam 7 * (ly * (em * sk + 6 * tiny)).
Lemma bumped_range em : 0 <= em <= p2 99 -> p2 (-40) <= (1 + uro) * (em + val d_eps) <= p2 100.
Proof.
  intros Hem. pose proof uro_pos as Pu. destruct step_val as (_ & Bd & _). pose proof step_p2 as S2. assert (P40 : p2 (-40) <= p2 (-27)) by (apply Raux.bpow_le; lia). split.
  - assert (0 <= uro * (em + val d_eps)) by (apply Rmult_le_pos; lra). lra.
  - assert (E : p2 100 = 2 * p2 99) by (change 100%Z with (1 + 99)%Z; rewrite Raux.bpow_plus; reflexivity). assert (L : 8 <= p2 99) by (change 8 with (p2 3); apply Raux.bpow_le; lia).
    rewrite uro_val. assert (X : (1 + / 9007199254740992) * (em + val d_eps) <= (1 + / 4) * (p2 99 + 1)) by (apply Rmult_le_compat; lra). lra.
Qed.
Lemma fin_zeros n v : fin (lget (zeros n : list flt) v) /\ Rabs (val (lget (zeros n : list flt) v)) <= 0.
Proof.
  assert (E : lget (zeros n : list flt) v = ofZ 0). { destruct (Z_lt_ge_dec v 0) as [A|A]; [unfold lget; replace (Z.to_nat v) with 0%nat by lia; unfold zeros, ltab; destruct (zrange 0 n); reflexivity|].
    destruct (Z_lt_ge_dec v n) as [B|B]; [unfold zeros; now rewrite lget_ltab by lia|]. unfold lget, zeros, ltab. apply nth_overflow. rewrite map_length, length_zrange. lia. }
  rewrite E. split; [exact fin_0|]. rewrite val_0, Rabs_R0. lra.
Qed.

Section Three.
Variables (fuel0 : nat) (q0 : Z -> peek) (j : junk flt) (nx ny nz mtype : Z) (mp : list flt) (mt : list Z) (ps : list flt) (o0 : obj flt) (H L m M : R).
Hypothesis A : valid_args 3 nx ny nz mtype mp mt ps.
Hypothesis J : total_junk j.
Hypothesis C : construct fuel0 q0 j 3 [nx; ny; nz] mtype mp mt ps = Ok o0.
Hypothesis FA : fair_args 3 nx ny nz mp ps H L M.
Hypothesis NP : no_plastic mt.
Hypothesis Hm : 0 < m.
Hypothesis Mo : moduli3 (map val ps) m M.
Local Notation V := (o_env o0).
Local Notation W := (exact_env (o_env o0)).
Local Notation N := (nx * ny * nz * 3)%Z.
Local Notation ly := (val (lget mp 1)).
Hypothesis G : gam (S (Z.to_nat N)) <= / 2.
Hypothesis Th : theta3 V H M m + gam 12 <= / 2.
Lemma at3 K : (forall e u vo b n s, state3 W e u vo b n s -> forall v, (0 <= v < 6)%Z -> v_ly W * Rabs (lget s v - dot 6 (K v) (lget e)) <= n * sqrt (10 * (IZR ((v_nx W - 1) * (v_ny W - 1) * (v_nz W - 1)) * M) / m)) ->
  forall em eps fuel pk w w1 nl it er s, p2 (-40) <= em <= p2 100 -> (forall v, (0 <= v < 6)%Z -> fin (lget eps v) /\ Rabs (val (lget eps v)) <= em) -> wok V w ->
  respond fuel pk V eps w = Ok (w1, nl, it, er, s) -> oltb er nr_tol = true -> forall v, (0 <= v < 6)%Z ->
  bd 877 (lget s v) /\ ly * Rabs (val (lget s v) - dot 6 (K v) (fun i => val (lget eps i))) <= stress_gap3 V H L M m em er.
Proof.
  intros Ap em eps fuel pk w w1 nl it er s Em He Wk Er T v Hv. destruct (built3 fuel0 q0 j nx ny nz mtype mp mt ps o0 H L m M A J C FA NP Hm Mo) as (Sv & (tol & EV) & FV & St & D & EN & PM).
  assert (Hem : forall v, (0 <= v < 6)%Z -> Rabs (val (lget eps v)) <= em) by (intros i Hi; exact (proj2 (He i Hi))).
  assert (Hfin : forall v, (0 <= v < 6)%Z -> fin (lget eps v)) by (intros i Hi; exact (proj1 (He i Hi))).
  assert (LX : val (v_lx V) <= L) by (rewrite (eo_lx _ _ _ _ _ _ _ _ _ _ EV); exact (fa_lx _ _ _ _ _ _ _ _ _ FA)).
  assert (LY : val (v_ly V) <= L) by (rewrite (eo_ly _ _ _ _ _ _ _ _ _ _ EV); exact (fa_ly _ _ _ _ _ _ _ _ _ FA)).
  assert (LZ : val (v_lz V) <= L) by (rewrite (eo_lz _ _ _ _ _ _ _ _ _ _ EV); exact (fa_lz _ _ _ _ _ _ _ _ _ FA eq_refl)).
  pose proof G as G'. rewrite <- EN in G'.
  destruct (finite_stress3 V H M em m eps fuel pk w w1 nl it er s FV D Em Hfin Hem Hm PM St G' Th Wk Er T) as (AF & Fs). pose proof (Fs v Hv) as Fx. split; [exact Fx|].
  pose proof (answer3 V H M L em m eps FV D LX LY LZ (proj1 Em) Hem Hm PM St G' Th fuel pk w w1 nl it er s Wk Er T AF K Ap v Hv (proj1 Fx)) as Z.
  change (v_ly W) with (val (v_ly V)) in Z. rewrite (eo_ly _ _ _ _ _ _ _ _ _ _ EV) in Z at 1. exact Z.
Qed.
Theorem double_tangents3 : exists K : Z -> Z -> R, (forall v i, (0 <= v < 6)%Z -> (0 <= i < 6)%Z -> K v i = K i v) /\
  (forall e u vo b s, state3 W e u vo b 0 s -> forall v, (0 <= v < 6)%Z -> lget s v = dot 6 (K v) (lget e)) /\
  forall cs o fs fuel q id e o' fs' r em g, reaches o0 cs o fs -> last_set id e cs -> p2 (-40) <= em <= p2 99 -> (forall v, (0 <= v < 6)%Z -> fin (lget e v) /\ Rabs (val (lget e v)) <= em) ->
  step (Homogenize fuel q) (o, fs) = Ok (o', fs', r) -> lookup id (o_gps o) = Some g -> ~ below o g ->
  exists g', lookup id (o_gps o') = Some g' /\ forall v i, (0 <= v < 6)%Z -> (0 <= i < 6)%Z ->
  exists er er' c, aget (g_err g') 0 = Some er /\ aget (g_err g') (1 + i) = Some er' /\ aget (g_ctan g') (v * 6 + i) = Some c /\
  (oltb er nr_tol = true -> oltb er' nr_tol = true -> fin c /\
    ly * Rabs (val c - K v i) <= tan_gap ly em (Rabs (K v i)) (stress_gap3 V H L M m em er) (stress_gap3 V H L M m ((1 + uro) * (em + val d_eps)) er')).
Proof.
  destruct (built3 fuel0 q0 j nx ny nz mtype mp mt ps o0 H L m M A J C FA NP Hm Mo) as (Sv & (tol & EV) & FV & St & D & EN & PM). destruct (body_W V H M FV D) as (BW & LW & AW).
  destruct (effective3 W m M BW LW AW Hm PM St) as (K & Sy & Ex & Ap). exists K. split; [exact Sy|]. split; [exact Ex|]. pose proof (at3 K Ap) as AT.
  intros cs o fs fuel q id e o' fs' r em g R0 Ls Em He Hs Lg Nb. assert (O0 : is_object o0) by (do 11 eexists; eauto).
  destruct (reach_inv o0 cs o fs O0 R0) as (_ & (Eo & _) & (_ & Hi)). destruct (Hi id g Lg) as (Q & _). specialize (Q e Ls).
  destruct (point_solved o0 cs o fs fuel q o' fs' r id g O0 R0 Hs Lg (or_intror Nb)) as (g' & w & k & Lg' & (Wk & _) & So).
  rewrite Eo in *. destruct So as (vo & w1 & nl & it & er & s & Hvo & Fvo & Er & Hst & _ & He0 & _ & _ & Col). exists g'. split; [exact Lg'|].
  intros v i Hv Hi2. assert (Nv : nvoi V = 6%Z) by (unfold nvoi; now rewrite D). rewrite Nv in Col. destruct (Col i Hi2) as (w2 & w3 & nl' & it' & er' & s' & Wf2 & _ & Er' & _ & He' & Hc).
  exists er, er', (odiv (osub (lget s' v) (lget s v)) d_eps). split; [exact He0|]. split; [exact He'|]. split; [exact (Hc v Hv)|]. intros T T'.
  assert (Wk2 : wok V (set_vold w vo)). { destruct Wk. constructor; try assumption. intros a b c Ha Hb Hcc P. rewrite (fr_lin _ _ _ FV D a Ha) in P; discriminate. }
  rewrite Nv in Er. set (eps := map (oval (g_strain g)) (zrange 0 6)) in *. assert (Heq : eps = map (oval (g_strain g)) (zrange 0 (nvoi V))) by (unfold eps; now rewrite Nv).
  assert (P40 : 0 <= p2 (-40)) by (left; apply Raux.bpow_gt_0). assert (P99 : p2 99 <= p2 100) by (apply Raux.bpow_le; lia). assert (P300 : p2 99 <= p2 300) by (apply Raux.bpow_le; lia).
  assert (Heps : forall v, (0 <= v < 6)%Z -> fin (lget eps v) /\ Rabs (val (lget eps v)) <= em).
  { intros v2 Hv2. rewrite Heq. split; [apply (given_fin V g e Sv Q); [rewrite Nv; intros i2 Hi3; exact (proj1 (He i2 Hi3))|exact Hv2]|].
    apply (given_small V g e em Sv Q); [lra|rewrite Nv; intros i2 Hi3; exact (proj2 (He i2 Hi3))|exact Hv2]. }
  assert (PB : p2 (-40) <= (1 + uro) * (em + val d_eps) <= p2 100) by (apply bumped_range; lra).
  assert (Hb : forall v, (0 <= v < 6)%Z -> fin (lget (bump 6 eps i) v) /\ Rabs (val (lget (bump 6 eps i) v)) <= (1 + uro) * (em + val d_eps)) by (apply bump_all; [exact Hi2|exact Heps|lra]).
  destruct (AT em eps _ _ _ _ _ _ _ _ ltac:(lra) Heps Wk2 Er T v Hv) as (B0 & Q0). destruct (AT _ _ _ _ _ _ _ _ _ _ PB Hb (proj1 Wf2) Er' T' v Hv) as (B1 & Q1).
  assert (Pl : 0 < ly). { pose proof (fa_y _ _ _ _ _ _ _ _ _ FA) as FY. destruct BW as (SW & GW & _). destruct (geom_pos W SW GW) as (_ & Py). change (v_ly W) with (val (v_ly V)) in Py. rewrite (eo_ly _ _ _ _ _ _ _ _ _ _ EV) in Py. exact Py. }
  exact (col_near 6 (K v) eps i (lget s v) (lget s' v) ly _ _ em Hi2 Pl Heps ltac:(lra) B0 B1 Q0 Q1).
Qed.
Theorem double_linear3 : exists K : Z -> Z -> R, (forall v i, (0 <= v < 6)%Z -> (0 <= i < 6)%Z -> K v i = K i v) /\
  (forall e u vo b s, state3 W e u vo b 0 s -> forall v, (0 <= v < 6)%Z -> lget s v = dot 6 (K v) (lget e)) /\
  exists ers : Z -> flt,
  let gap v i := lin_gap ly (Rabs (K v i)) (stress_gap3 V H L M m ((1 + uro) * val d_eps) (ers i)) in
  (forall i, (0 <= i < 6)%Z -> exists w w' nl it s, wok V w /\ respond fuel0 (q0 i) V (bump 6 (zeros 6) i) w = Ok (w', nl, it, ers i, s)) /\
  (forall v i, (0 <= v < 6)%Z -> (0 <= i < 6)%Z -> oltb (ers i) nr_tol = true -> exists c, aget (o_ctan o0) (v * 6 + i) = Some c /\ fin c /\ ly * Rabs (val c - K v i) <= gap v i) /\
  ((forall i, (0 <= i < 6)%Z -> oltb (ers i) nr_tol = true) ->
   forall cs o fs fuel q id e o' fs' r em g, reaches o0 cs o fs -> last_set id e cs -> 0 <= em <= p2 60 -> (forall v, (0 <= v < 6)%Z -> fin (lget e v) /\ Rabs (val (lget e v)) <= em) ->
   step (Homogenize fuel q) (o, fs) = Ok (o', fs', r) -> lookup id (o_gps o) = Some g -> g_n g = None -> below o g ->
   exists ss, step (GetStress id) (o', fs') = Ok (o', fs', RBuf (Some ss)) /\ length ss = 6%nat /\ forall v, (0 <= v < 6)%Z -> fin (lget ss v) /\
     ly * Rabs (val (lget ss v) - dot 6 (K v) (fun i => val (lget e i))) <= pred_gap ly em (rsum (zrange 0 6) (gap v)) (rsum (zrange 0 6) (fun i => Rabs (K v i)))).
Proof.
  destruct (built3 fuel0 q0 j nx ny nz mtype mp mt ps o0 H L m M A J C FA NP Hm Mo) as (Sv & (tol & EV) & FV & St & D & EN & PM). destruct (body_W V H M FV D) as (BW & LW & AW).
  destruct (effective3 W m M BW LW AW Hm PM St) as (K & Sy & Ex & Ap). exists K. split; [exact Sy|]. split; [exact Ex|]. pose proof (at3 K Ap) as AT.
  assert (Nv : nvoi V = 6%Z) by (unfold nvoi; now rewrite D). pose proof (any_columns fuel0 q0 j 3 nx ny nz mtype mp mt ps o0 A J C) as Col. rewrite Nv in Col.
  destruct (pick (ofZ 0 : flt) 6 (fun i er => exists w w' nl it s, wok V w /\ respond fuel0 (q0 i) V (bump 6 (zeros 6) i) w = Ok (w', nl, it, er, s) /\
    forall v, (0 <= v < 6)%Z -> aget (o_ctan o0) (v * 6 + i) = Some (odiv (lget s v) d_eps))) as (ers & Hers).
  { intros i Hi. destruct (Col i Hi) as (w & w' & nl & it & er & s & X). exists er, w, w', nl, it, s. exact X. }
  exists ers. intros gap.
  assert (Pl : 0 < ly). { destruct BW as (SW & GW & _). destruct (geom_pos W SW GW) as (_ & Py). change (v_ly W) with (val (v_ly V)) in Py. rewrite (eo_ly _ _ _ _ _ _ _ _ _ _ EV) in Py. exact Py. }
  assert (Ent : forall v i, (0 <= v < 6)%Z -> (0 <= i < 6)%Z -> oltb (ers i) nr_tol = true -> exists c, aget (o_ctan o0) (v * 6 + i) = Some c /\ bd 905 c /\ ly * Rabs (val c - K v i) <= gap v i).
  { intros v i Hv Hi T. destruct (Hers i Hi) as (w & w' & nl & it & s & Wk & Er & Hc). exists (odiv (lget s v) d_eps). split; [exact (Hc v Hv)|].
    assert (P0 : 0 <= p2 99) by (left; apply Raux.bpow_gt_0). assert (P300 : 0 <= p2 300) by (left; apply Raux.bpow_gt_0).
    pose proof (bumped_range 0 ltac:(lra)) as PB.
    assert (Hb : forall v, (0 <= v < 6)%Z -> fin (lget (bump 6 (zeros 6) i) v) /\ Rabs (val (lget (bump 6 (zeros 6) i) v)) <= (1 + uro) * (0 + val d_eps)) by (apply bump_all; [exact Hi|intros v2 _; apply fin_zeros|lra]).
    rewrite Rplus_0_l in PB, Hb. destruct (AT _ _ _ _ _ _ _ _ _ _ PB Hb Wk Er T v Hv) as (B0 & Q0). exact (lin_near 6 (K v) i (lget s v) ly _ Hi Pl B0 Q0). }
  split; [intros i Hi; destruct (Hers i Hi) as (w & w' & nl & it & s & Wk & Er & _); eauto 8|].
  split; [intros v i Hv Hi T; destruct (Ent v i Hv Hi T) as (c & Ec & Bc & Q); exists c; split; [exact Ec|]; split; [exact (proj1 Bc)|exact Q]|].
  intros All cs o fs fuel q id e o' fs' r em g R0 Ls Em He Hs Lg Nn Bl. assert (O0 : is_object o0) by (do 11 eexists; eauto).
  destruct (reach_inv o0 cs o fs O0 R0) as (_ & (Eo & Eo2 & _) & (_ & Hi)). destruct (Hi id g Lg) as (Q & _). specialize (Q e Ls).
  destruct (linear_point o0 cs o fs fuel q o' fs' r id g O0 R0 Hs Lg Nn Bl) as (Gs & _ & _). rewrite Eo, Nv in Gs. eexists. split; [exact Gs|]. split; [rewrite map_length, length_zrange; reflexivity|].
  intros v Hv. change (map (predicted o g) (zrange 0 6)) with (ltab 6 (predicted o g)). rewrite lget_ltab by exact Hv. unfold predicted. rewrite Eo, Eo2, Nv.
  assert (P : forall jj, (0 <= jj < 6)%Z -> bd 905 (oval (o_ctan o0) (v * 6 + jj)) /\ ly * Rabs (val (oval (o_ctan o0) (v * 6 + jj)) - K v jj) <= gap v jj).
  { intros jj Hjj. destruct (Ent v jj Hv Hjj (All jj Hjj)) as (c & Ec & Bc & Qc). unfold oval. rewrite Ec. split; assumption. }
  assert (Es : forall jj, (0 <= jj < 6)%Z -> oval (g_strain g) jj = lget e jj). { intros jj Hjj. unfold oval. rewrite (Q jj) by (rewrite Eo, Nv; exact Hjj). reflexivity. }
  assert (P2 : forall jj, (0 <= jj < 6)%Z -> fin (oval (g_strain g) jj) /\ Rabs (val (oval (g_strain g) jj)) <= em). { intros jj Hjj. rewrite (Es jj Hjj). exact (He jj Hjj). }
  destruct (pred_near 6 (fun jj => oval (o_ctan o0) (v * 6 + jj)) (K v) (fun jj => oval (g_strain g) jj) (gap v) ly em ltac:(lia) Pl Em P P2) as (F & Z). split; [exact F|].
  replace (dot 6 (K v) (fun i => val (lget e i))) with (dot 6 (K v) (fun jj => val (oval (g_strain g) jj))); [exact Z|]. unfold dot. apply rsum_ext. intros jj Hjj. apply in_zrange in Hjj. now rewrite (Es jj Hjj).
Qed.
End Three.

Section Two.
Variables (fuel0 : nat) (q0 : Z -> peek) (j : junk flt) (nx ny nz mtype : Z) (mp : list flt) (mt : list Z) (ps : list flt) (o0 : obj flt) (H L m M : R).
Hypothesis A : valid_args 2 nx ny nz mtype mp mt ps.
Hypothesis J : total_junk j.
Hypothesis C : construct fuel0 q0 j 2 [nx; ny; nz] mtype mp mt ps = Ok o0.
Hypothesis FA : fair_args 2 nx ny nz mp ps H L M.
Hypothesis Hm : 0 < m.
Hypothesis Mo : moduli2 (map val ps) m M.
Local Notation V := (o_env o0).
Local Notation W := (exact_env (o_env o0)).
Local Notation N := (nx * ny * 2)%Z.
Local Notation ly := (val (lget mp 1)).
Hypothesis G : gam (S (Z.to_nat N)) <= / 2.
Hypothesis Th : theta2 V H M m + gam 12 <= / 2.
Lemma at2 K : (forall e u b n s, state2 W e u b n s -> forall v, (0 <= v < 3)%Z -> v_ly W * Rabs (lget s v - dot 3 (K v) (lget e)) <= n * sqrt (4 * (IZR ((v_nx W - 1) * (v_ny W - 1)) * M) / m)) ->
  forall em eps fuel pk w w1 nl it er s, p2 (-40) <= em <= p2 100 -> (forall v, (0 <= v < 6)%Z -> fin (lget eps v) /\ Rabs (val (lget eps v)) <= em) -> wok V w ->
  respond fuel pk V eps w = Ok (w1, nl, it, er, s) -> oltb er nr_tol = true -> forall v, (0 <= v < 3)%Z ->
  bd 877 (lget s v) /\ ly * Rabs (val (lget s v) - dot 3 (K v) (fun i => val (lget eps i))) <= stress_gap2 V H L M m em er.
Proof.
  intros Ap em eps fuel pk w w1 nl it er s Em He Wk Er T v Hv. destruct (built2 fuel0 q0 j nx ny nz mtype mp mt ps o0 H L m M A J C FA Hm Mo) as (Sv & (tol & EV) & FV & St & D & EN & PM).
  assert (Hem : forall v, (0 <= v < 6)%Z -> Rabs (val (lget eps v)) <= em) by (intros i Hi; exact (proj2 (He i Hi))).
  assert (Hfin : forall v, (0 <= v < 6)%Z -> fin (lget eps v)) by (intros i Hi; exact (proj1 (He i Hi))).
  assert (LX : val (v_lx V) <= L) by (rewrite (eo_lx _ _ _ _ _ _ _ _ _ _ EV); exact (fa_lx _ _ _ _ _ _ _ _ _ FA)).
  assert (LY : val (v_ly V) <= L) by (rewrite (eo_ly _ _ _ _ _ _ _ _ _ _ EV); exact (fa_ly _ _ _ _ _ _ _ _ _ FA)).
  pose proof G as G'. rewrite <- EN in G'.
  destruct (finite_stress2 V H M em m eps fuel pk w w1 nl it er s FV D Em Hfin Hem Hm PM St G' Th Wk Er T) as (AF & Fs). pose proof (Fs v Hv) as Fx. split; [exact Fx|].
  pose proof (answer2 V H M L em m eps FV D LX LY (proj1 Em) Hem Hm PM St G' Th fuel pk w w1 nl it er s Wk Er T AF K Ap v Hv (proj1 Fx)) as Z.
  change (v_ly W) with (val (v_ly V)) in Z. rewrite (eo_ly _ _ _ _ _ _ _ _ _ _ EV) in Z at 1. exact Z.
Qed.
Theorem double_tangents2 : exists K : Z -> Z -> R, (forall v i, (0 <= v < 3)%Z -> (0 <= i < 3)%Z -> K v i = K i v) /\
  (forall e u b s, state2 W e u b 0 s -> forall v, (0 <= v < 3)%Z -> lget s v = dot 3 (K v) (lget e)) /\
  forall cs o fs fuel q id e o' fs' r em g, reaches o0 cs o fs -> last_set id e cs -> p2 (-40) <= em <= p2 99 -> (forall v, (0 <= v < 3)%Z -> fin (lget e v) /\ Rabs (val (lget e v)) <= em) ->
  step (Homogenize fuel q) (o, fs) = Ok (o', fs', r) -> lookup id (o_gps o) = Some g -> ~ below o g ->
  exists g', lookup id (o_gps o') = Some g' /\ forall v i, (0 <= v < 3)%Z -> (0 <= i < 3)%Z ->
  exists er er' c, aget (g_err g') 0 = Some er /\ aget (g_err g') (1 + i) = Some er' /\ aget (g_ctan g') (v * 3 + i) = Some c /\
  (oltb er nr_tol = true -> oltb er' nr_tol = true -> fin c /\
    ly * Rabs (val c - K v i) <= tan_gap ly em (Rabs (K v i)) (stress_gap2 V H L M m em er) (stress_gap2 V H L M m ((1 + uro) * (em + val d_eps)) er')).
Proof.
  destruct (built2 fuel0 q0 j nx ny nz mtype mp mt ps o0 H L m M A J C FA Hm Mo) as (Sv & (tol & EV) & FV & St & D & EN & PM). destruct (body_W2 V H M FV D) as (BW & AW).
  destruct (effective2 W m M BW AW Hm PM St) as (K & Sy & Ex & Ap). exists K. split; [exact Sy|]. split; [exact Ex|]. pose proof (at2 K Ap) as AT.
  intros cs o fs fuel q id e o' fs' r em g R0 Ls Em He Hs Lg Nb. assert (O0 : is_object o0) by (do 11 eexists; eauto).
  destruct (reach_inv o0 cs o fs O0 R0) as (_ & (Eo & _) & (_ & Hi)). destruct (Hi id g Lg) as (Q & _). specialize (Q e Ls).
  destruct (point_solved o0 cs o fs fuel q o' fs' r id g O0 R0 Hs Lg (or_intror Nb)) as (g' & w & k & Lg' & (Wk & _) & So).
  rewrite Eo in *. destruct So as (vo & w1 & nl & it & er & s & Hvo & Fvo & Er & Hst & _ & He0 & _ & _ & Col). exists g'. split; [exact Lg'|].
  intros v i Hv Hi2. assert (Nv : nvoi V = 3%Z) by (unfold nvoi; now rewrite D). rewrite Nv in Col. destruct (Col i Hi2) as (w2 & w3 & nl' & it' & er' & s' & Wf2 & _ & Er' & _ & He' & Hc).
  exists er, er', (odiv (osub (lget s' v) (lget s v)) d_eps). split; [exact He0|]. split; [exact He'|]. split; [exact (Hc v Hv)|]. intros T T'.
  assert (Wk2 : wok V (set_vold w vo)). { destruct Wk. constructor; try assumption. exact (old_full V vo Fvo). }
  rewrite Nv in Er. set (eps := map (oval (g_strain g)) (zrange 0 3)) in *. assert (Heq : eps = map (oval (g_strain g)) (zrange 0 (nvoi V))) by (unfold eps; now rewrite Nv).
  assert (P40 : 0 <= p2 (-40)) by (left; apply Raux.bpow_gt_0). assert (P99 : p2 99 <= p2 100) by (apply Raux.bpow_le; lia). assert (P300 : p2 99 <= p2 300) by (apply Raux.bpow_le; lia).
  assert (Heps : forall v, (0 <= v < 6)%Z -> fin (lget eps v) /\ Rabs (val (lget eps v)) <= em).
  { intros v2 Hv2. rewrite Heq. split; [apply (given_fin V g e Sv Q); [rewrite Nv; intros i2 Hi3; exact (proj1 (He i2 Hi3))|exact Hv2]|].
    apply (given_small V g e em Sv Q); [lra|rewrite Nv; intros i2 Hi3; exact (proj2 (He i2 Hi3))|exact Hv2]. }
  assert (Heps3 : forall v, (0 <= v < 3)%Z -> fin (lget eps v) /\ Rabs (val (lget eps v)) <= em) by (intros v2 Hv2; apply Heps; lia).
  assert (PB : p2 (-40) <= (1 + uro) * (em + val d_eps) <= p2 100) by (apply bumped_range; lra).
  assert (Hb : forall v, (0 <= v < 6)%Z -> fin (lget (bump 3 eps i) v) /\ Rabs (val (lget (bump 3 eps i) v)) <= (1 + uro) * (em + val d_eps)) by (apply bump_all; [exact Hi2|exact Heps3|lra]).
  destruct (AT em eps _ _ _ _ _ _ _ _ ltac:(lra) Heps Wk2 Er T v Hv) as (B0 & Q0). destruct (AT _ _ _ _ _ _ _ _ _ _ PB Hb (proj1 Wf2) Er' T' v Hv) as (B1 & Q1).
  assert (Pl : 0 < ly). { pose proof (fa_y _ _ _ _ _ _ _ _ _ FA) as FY. destruct BW as (SW & GW & _). destruct (geom_pos W SW GW) as (_ & Py). change (v_ly W) with (val (v_ly V)) in Py. rewrite (eo_ly _ _ _ _ _ _ _ _ _ _ EV) in Py. exact Py. }
  exact (col_near 3 (K v) eps i (lget s v) (lget s' v) ly _ _ em Hi2 Pl Heps3 ltac:(lra) B0 B1 Q0 Q1).
Qed.
Theorem double_linear2 : exists K : Z -> Z -> R, (forall v i, (0 <= v < 3)%Z -> (0 <= i < 3)%Z -> K v i = K i v) /\
  (forall e u b s, state2 W e u b 0 s -> forall v, (0 <= v < 3)%Z -> lget s v = dot 3 (K v) (lget e)) /\
  exists ers : Z -> flt,
  let gap v i := lin_gap ly (Rabs (K v i)) (stress_gap2 V H L M m ((1 + uro) * val d_eps) (ers i)) in
  (forall i, (0 <= i < 3)%Z -> exists w w' nl it s, wok V w /\ respond fuel0 (q0 i) V (bump 3 (zeros 3) i) w = Ok (w', nl, it, ers i, s)) /\
  (forall v i, (0 <= v < 3)%Z -> (0 <= i < 3)%Z -> oltb (ers i) nr_tol = true -> exists c, aget (o_ctan o0) (v * 3 + i) = Some c /\ fin c /\ ly * Rabs (val c - K v i) <= gap v i) /\
  ((forall i, (0 <= i < 3)%Z -> oltb (ers i) nr_tol = true) ->
   forall cs o fs fuel q id e o' fs' r em g, reaches o0 cs o fs -> last_set id e cs -> 0 <= em <= p2 60 -> (forall v, (0 <= v < 3)%Z -> fin (lget e v) /\ Rabs (val (lget e v)) <= em) ->
   step (Homogenize fuel q) (o, fs) = Ok (o', fs', r) -> lookup id (o_gps o) = Some g -> g_n g = None -> below o g ->
   exists ss, step (GetStress id) (o', fs') = Ok (o', fs', RBuf (Some ss)) /\ length ss = 3%nat /\ forall v, (0 <= v < 3)%Z -> fin (lget ss v) /\
     ly * Rabs (val (lget ss v) - dot 3 (K v) (fun i => val (lget e i))) <= pred_gap ly em (rsum (zrange 0 3) (gap v)) (rsum (zrange 0 3) (fun i => Rabs (K v i)))).
Proof.
  destruct (built2 fuel0 q0 j nx ny nz mtype mp mt ps o0 H L m M A J C FA Hm Mo) as (Sv & (tol & EV) & FV & St & D & EN & PM). destruct (body_W2 V H M FV D) as (BW & AW).
  destruct (effective2 W m M BW AW Hm PM St) as (K & Sy & Ex & Ap). exists K. split; [exact Sy|]. split; [exact Ex|]. pose proof (at2 K Ap) as AT.
  assert (Nv : nvoi V = 3%Z) by (unfold nvoi; now rewrite D). pose proof (any_columns fuel0 q0 j 2 nx ny nz mtype mp mt ps o0 A J C) as Col. rewrite Nv in Col.
  destruct (pick (ofZ 0 : flt) 3 (fun i er => exists w w' nl it s, wok V w /\ respond fuel0 (q0 i) V (bump 3 (zeros 3) i) w = Ok (w', nl, it, er, s) /\
    forall v, (0 <= v < 3)%Z -> aget (o_ctan o0) (v * 3 + i) = Some (odiv (lget s v) d_eps))) as (ers & Hers).
  { intros i Hi. destruct (Col i Hi) as (w & w' & nl & it & er & s & X). exists er, w, w', nl, it, s. exact X. }
  exists ers. intros gap.
  assert (Pl : 0 < ly). { destruct BW as (SW & GW & _). destruct (geom_pos W SW GW) as (_ & Py). change (v_ly W) with (val (v_ly V)) in Py. rewrite (eo_ly _ _ _ _ _ _ _ _ _ _ EV) in Py. exact Py. }
  assert (Ent : forall v i, (0 <= v < 3)%Z -> (0 <= i < 3)%Z -> oltb (ers i) nr_tol = true -> exists c, aget (o_ctan o0) (v * 3 + i) = Some c /\ bd 905 c /\ ly * Rabs (val c - K v i) <= gap v i).
  { intros v i Hv Hi T. destruct (Hers i Hi) as (w & w' & nl & it & s & Wk & Er & Hc). exists (odiv (lget s v) d_eps). split; [exact (Hc v Hv)|].
    assert (P0 : 0 <= p2 99) by (left; apply Raux.bpow_gt_0). assert (P300 : 0 <= p2 300) by (left; apply Raux.bpow_gt_0).
    pose proof (bumped_range 0 ltac:(lra)) as PB.
    assert (Hb : forall v, (0 <= v < 6)%Z -> fin (lget (bump 3 (zeros 3) i) v) /\ Rabs (val (lget (bump 3 (zeros 3) i) v)) <= (1 + uro) * (0 + val d_eps)) by (apply bump_all; [exact Hi|intros v2 _; apply fin_zeros|lra]).
    rewrite Rplus_0_l in PB, Hb. destruct (AT _ _ _ _ _ _ _ _ _ _ PB Hb Wk Er T v Hv) as (B0 & Q0). exact (lin_near 3 (K v) i (lget s v) ly _ Hi Pl B0 Q0). }
  split; [intros i Hi; destruct (Hers i Hi) as (w & w' & nl & it & s & Wk & Er & _); eauto 8|].
  split; [intros v i Hv Hi T; destruct (Ent v i Hv Hi T) as (c & Ec & Bc & Q); exists c; split; [exact Ec|]; split; [exact (proj1 Bc)|exact Q]|].
  intros All cs o fs fuel q id e o' fs' r em g R0 Ls Em He Hs Lg Nn Bl. assert (O0 : is_object o0) by (do 11 eexists; eauto).
  destruct (reach_inv o0 cs o fs O0 R0) as (_ & (Eo & Eo2 & _) & (_ & Hi)). destruct (Hi id g Lg) as (Q & _). specialize (Q e Ls).
  destruct (linear_point o0 cs o fs fuel q o' fs' r id g O0 R0 Hs Lg Nn Bl) as (Gs & _ & _). rewrite Eo, Nv in Gs. eexists. split; [exact Gs|]. split; [rewrite map_length, length_zrange; reflexivity|].
  intros v Hv. change (map (predicted o g) (zrange 0 3)) with (ltab 3 (predicted o g)). rewrite lget_ltab by exact Hv. unfold predicted. rewrite Eo, Eo2, Nv.
  assert (P : forall jj, (0 <= jj < 3)%Z -> bd 905 (oval (o_ctan o0) (v * 3 + jj)) /\ ly * Rabs (val (oval (o_ctan o0) (v * 3 + jj)) - K v jj) <= gap v jj).
  { intros jj Hjj. destruct (Ent v jj Hv Hjj (All jj Hjj)) as (c & Ec & Bc & Qc). unfold oval. rewrite Ec. split; assumption. }
  assert (Es : forall jj, (0 <= jj < 3)%Z -> oval (g_strain g) jj = lget e jj). { intros jj Hjj. unfold oval. rewrite (Q jj) by (rewrite Eo, Nv; exact Hjj). reflexivity. }
  assert (P2 : forall jj, (0 <= jj < 3)%Z -> fin (oval (g_strain g) jj) /\ Rabs (val (oval (g_strain g) jj)) <= em). { intros jj Hjj. rewrite (Es jj Hjj). exact (He jj Hjj). }
  destruct (pred_near 3 (fun jj => oval (o_ctan o0) (v * 3 + jj)) (K v) (fun jj => oval (g_strain g) jj) (gap v) ly em ltac:(lia) Pl Em P P2) as (F & Z). split; [exact F|].
  replace (dot 3 (K v) (fun i => val (lget e i))) with (dot 3 (K v) (fun jj => val (oval (g_strain g) jj))); [exact Z|]. unfold dot. apply rsum_ext. intros jj Hjj. apply in_zrange in Hjj. now rewrite (Es jj Hjj).
Qed.
End Two.

(** ** The gaps in the arguments of the constructor *)
Definition sgap3 nx ny nz (lx ly lz H L m M em : R) (er : flt) : R :=
  let cells := ((nx - 1) * (ny - 1) * (nz - 1))%Z in let vol := lx / IZR (nx - 1) * (ly / IZR (ny - 1)) * (lz / IZR (nz - 1)) in
  let N := Z.to_nat (nx * ny * nz * 3) in let rho := sqrt (INR N) * gam 165 in
  let nb := (1 + 4 * gam (S N)) * (val er + eta) + 2 * sqrt (INR N * tiny) in
  let U := 2 * (2 * (em * L) + lx * em * sqrt (45 * (IZR cells * M) / m) + 10 * (lx * lx) / (m * vol) * nb) in
  (nb + 4608 * rho * (H * H) * M * vol * U) * sqrt (10 * (IZR cells * M) / m) + ly * (gam (103 + Z.to_nat cells) * (96 * (M * H) * lz * U)).
Definition sgap2 nx ny (lx ly H L m M em : R) (er : flt) : R :=
  let cells := ((nx - 1) * (ny - 1))%Z in let vol := lx / IZR (nx - 1) * (ly / IZR (ny - 1)) in
  let N := Z.to_nat (nx * ny * 2) in let rho := sqrt (INR N) * gam 165 in
  let nb := (1 + 4 * gam (S N)) * (val er + eta) + 2 * sqrt (INR N * tiny) in
  let U := 2 * (2 * (em * L) + lx * em * sqrt (10 * (IZR cells * M) / m) + 4 * (lx * lx) / (m * vol) * nb) in
  (nb + 1152 * rho * (H * H) * M * vol * U) * sqrt (4 * (IZR cells * M) / m) + ly * (gam (103 + Z.to_nat cells) * (96 * (M * H) * 1 * U)).
Section Args3.
Variables (fuel0 : nat) (q0 : Z -> peek) (j : junk flt) (nx ny nz mtype : Z) (mp : list flt) (mt : list Z) (ps : list flt) (o0 : obj flt) (H L m M : R).
Local Notation lx := (val (lget mp 0)).
Local Notation ly := (val (lget mp 1)).
Local Notation lz := (val (lget mp 2)).
Local Notation N := (Z.to_nat (nx * ny * nz * 3)).
Hypothesis A : valid_args 3 nx ny nz mtype mp mt ps.
Hypothesis J : total_junk j.
Hypothesis C : construct fuel0 q0 j 3 [nx; ny; nz] mtype mp mt ps = Ok o0.
Hypothesis FA : fair_args 3 nx ny nz mp ps H L M.
Hypothesis NP : no_plastic mt.
Hypothesis Hm : 0 < m.
Hypothesis Mo : moduli3 (map val ps) m M.
Hypothesis G : gam (S N) <= / 2.
Hypothesis Th : 46080 * (lx * lx) * (H * H) * (M / m) * (sqrt (INR N) * gam 165) + gam 12 <= / 2.
Local Notation sgap := (sgap3 nx ny nz lx ly lz H L m M).
Lemma gap_args3 : theta3 (o_env o0) H M m + gam 12 <= / 2 /\ (forall em er, stress_gap3 (o_env o0) H L M m em er = sgap em er) /\ (forall e, exists u vo b s, state3 (exact_env (o_env o0)) e u vo b 0 s).
Proof.
  destruct (built3 fuel0 q0 j nx ny nz mtype mp mt ps o0 H L m M A J C FA NP Hm Mo) as (Sv & (tol & EV) & FV & St & D & EN & PM).
  pose proof (eo_nx _ _ _ _ _ _ _ _ _ _ EV) as EX. pose proof (eo_ny _ _ _ _ _ _ _ _ _ _ EV) as EY. pose proof (eo_nz _ _ _ _ _ _ _ _ _ _ EV) as EZ.
  pose proof (eo_lx _ _ _ _ _ _ _ _ _ _ EV) as LX. pose proof (eo_ly _ _ _ _ _ _ _ _ _ _ EV) as LY. pose proof (eo_lz _ _ _ _ _ _ _ _ _ _ EV) as LZ. cbn [Z.eqb Pos.eqb] in EZ, LZ.
  destruct (body_W (o_env o0) H M FV D) as (BW & LW & AW). pose proof BW as (SW & _ & DW).
  assert (Len : length (els3 (o_env o0)) = Z.to_nat ((nx - 1) * (ny - 1) * (nz - 1))).
  { apply INR_eq. rewrite (cells_len3 (o_env o0) (exact_env (o_env o0)) eq_refl eq_refl eq_refl SW DW), INR_IZR_INZ. f_equal. cbn [exact_env v_nx v_ny v_nz]. pose proof (cells_dofs3 _ _ _ (sa_nx _ Sv) (sa_ny _ Sv) (sane_nz _ Sv D)). rewrite EX, EY, EZ in *. lia. }
  split; [unfold theta3; rewrite LX, EN; exact Th|]. split.
  - intros em er. unfold stress_gap3, spread, size3, norm_bound, sgap3. cbv zeta. cbn [exact_env v_nx v_ny v_nz v_lx v_ly v_lz v_dx v_dy v_dz]. rewrite EN, Len, EX, EY, EZ, LX, LY, LZ. reflexivity.
  - intro e. destruct (AsmEquil.equilibrium_exists3 (exact_env (o_env o0)) e (fun_arr 0 (fun _ => 0)) (fun_arr (ncells (exact_env (o_env o0)) * 56) (fun _ => 0)) BW LW AW) as (u & b & s & Q); [|eauto].
    split; [intros e1 g i He' Hg Hi P; rewrite (LW e1 He') in P; discriminate|reflexivity].
Qed.
Theorem tangents_double3 : exists K : Z -> Z -> R, (forall v i, (0 <= v < 6)%Z -> (0 <= i < 6)%Z -> K v i = K i v) /\
  (forall e, exists u vo b s, state3 (exact_env (o_env o0)) e u vo b 0 s) /\
  (forall e u vo b s, state3 (exact_env (o_env o0)) e u vo b 0 s -> forall v, (0 <= v < 6)%Z -> lget s v = dot 6 (K v) (lget e)) /\
  forall cs o fs fuel q id e o' fs' r em g, reaches o0 cs o fs -> last_set id e cs -> p2 (-40) <= em <= p2 99 -> (forall v, (0 <= v < 6)%Z -> fin (lget e v) /\ Rabs (val (lget e v)) <= em) ->
  step (Homogenize fuel q) (o, fs) = Ok (o', fs', r) -> lookup id (o_gps o) = Some g -> ~ below o g ->
  exists g', lookup id (o_gps o') = Some g' /\ forall v i, (0 <= v < 6)%Z -> (0 <= i < 6)%Z ->
  exists er er' c, aget (g_err g') 0 = Some er /\ aget (g_err g') (1 + i) = Some er' /\ aget (g_ctan g') (v * 6 + i) = Some c /\
  (oltb er nr_tol = true -> oltb er' nr_tol = true -> fin c /\ let d := val d_eps in let k := Rabs (K v i) in
    ly * Rabs (val c - K v i) <= (1 + gam 2) / d * (sgap em er + sgap ((1 + uro) * (em + d)) er' + ly * (k * (uro * (em + d)))) + ly * (gam 2 * k + eta)).
Proof.
  destruct gap_args3 as (Th2 & Eg & Exi). destruct (double_tangents3 fuel0 q0 j nx ny nz mtype mp mt ps o0 H L m M A J C FA NP Hm Mo G Th2) as (K & Sy & Ex & Ap). exists K. split; [exact Sy|]. split; [exact Exi|]. split; [exact Ex|].
  intros cs o fs fuel q id e o' fs' r em g R0 Ls Em He Hs Lg Nb. destruct (Ap cs o fs fuel q id e o' fs' r em g R0 Ls Em He Hs Lg Nb) as (g' & Lg' & Q). exists g'. split; [exact Lg'|]. intros v i Hv Hi.
  destruct (Q v i Hv Hi) as (er & er' & c & Q1 & Q2 & Q3 & Q4). exists er, er', c. split; [exact Q1|]. split; [exact Q2|]. split; [exact Q3|]. intros T T'. destruct (Q4 T T') as (F & B). split; [exact F|]. cbv zeta. rewrite !Eg in B. exact B.
Qed.
Theorem linear_double3 : exists K : Z -> Z -> R, (forall v i, (0 <= v < 6)%Z -> (0 <= i < 6)%Z -> K v i = K i v) /\
  (forall e, exists u vo b s, state3 (exact_env (o_env o0)) e u vo b 0 s) /\
  (forall e u vo b s, state3 (exact_env (o_env o0)) e u vo b 0 s -> forall v, (0 <= v < 6)%Z -> lget s v = dot 6 (K v) (lget e)) /\
  exists ers : Z -> flt, let d := val d_eps in let gap v i := (1 + uro) / d * sgap ((1 + uro) * d) (ers i) + ly * (uro * Rabs (K v i) + eta) in
  (forall i, (0 <= i < 6)%Z -> exists w w' nl it s, wok (o_env o0) w /\ respond fuel0 (q0 i) (o_env o0) (bump 6 (zeros 6) i) w = Ok (w', nl, it, ers i, s)) /\
  (forall v i, (0 <= v < 6)%Z -> (0 <= i < 6)%Z -> oltb (ers i) nr_tol = true -> exists c, aget (o_ctan o0) (v * 6 + i) = Some c /\ fin c /\ ly * Rabs (val c - K v i) <= gap v i) /\
  ((forall i, (0 <= i < 6)%Z -> oltb (ers i) nr_tol = true) ->
   forall cs o fs fuel q id e o' fs' r em g, reaches o0 cs o fs -> last_set id e cs -> 0 <= em <= p2 60 -> (forall v, (0 <= v < 6)%Z -> fin (lget e v) /\ Rabs (val (lget e v)) <= em) ->
   step (Homogenize fuel q) (o, fs) = Ok (o', fs', r) -> lookup id (o_gps o) = Some g -> g_n g = None -> below o g ->
   exists ss, step (GetStress id) (o', fs') = Ok (o', fs', RBuf (Some ss)) /\ length ss = 6%nat /\ forall v, (0 <= v < 6)%Z -> fin (lget ss v) /\
     ly * Rabs (val (lget ss v) - dot 6 (K v) (fun i => val (lget e i))) <=
       (1 + gam 7) * (em * rsum (zrange 0 6) (gap v)) + gam 7 * (ly * (em * rsum (zrange 0 6) (fun i => Rabs (K v i)) + 6 * tiny))).
Proof.
  destruct gap_args3 as (Th2 & Eg & Exi). destruct (double_linear3 fuel0 q0 j nx ny nz mtype mp mt ps o0 H L m M A J C FA NP Hm Mo G Th2) as (K & Sy & Ex & ers & Ap). exists K. split; [exact Sy|]. split; [exact Exi|]. split; [exact Ex|].
  exists ers. cbv zeta in *. destruct Ap as (Q1 & Q2 & Q3). split; [exact Q1|]. split.
  - intros v i Hv Hi T. destruct (Q2 v i Hv Hi T) as (c & E & F & B). exists c. split; [exact E|]. split; [exact F|]. rewrite Eg in B. exact B.
  - intros T cs o fs fuel q id e o' fs' r em g R0 Ls Em He Hs Lg Nn Bl. destruct (Q3 T cs o fs fuel q id e o' fs' r em g R0 Ls Em He Hs Lg Nn Bl) as (ss & E & Ln & B). exists ss. split; [exact E|]. split; [exact Ln|]. intros v Hv. destruct (B v Hv) as (F & Bv). split; [exact F|].
    eapply Rle_trans; [exact Bv|]. unfold pred_gap. apply Req_le. f_equal. f_equal. f_equal. apply rsum_ext. intros i _. rewrite Eg. reflexivity.
Qed.
End Args3.
Section Args2.
Variables (fuel0 : nat) (q0 : Z -> peek) (j : junk flt) (nx ny nz mtype : Z) (mp : list flt) (mt : list Z) (ps : list flt) (o0 : obj flt) (H L m M : R).
Local Notation lx := (val (lget mp 0)).
Local Notation ly := (val (lget mp 1)).
Local Notation N := (Z.to_nat (nx * ny * 2)).
Hypothesis A : valid_args 2 nx ny nz mtype mp mt ps.
Hypothesis J : total_junk j.
Hypothesis C : construct fuel0 q0 j 2 [nx; ny; nz] mtype mp mt ps = Ok o0.
Hypothesis FA : fair_args 2 nx ny nz mp ps H L M.
Hypothesis Hm : 0 < m.
Hypothesis Mo : moduli2 (map val ps) m M.
Hypothesis G : gam (S N) <= / 2.
Hypothesis Th : 4608 * (lx * lx) * (H * H) * (M / m) * (sqrt (INR N) * gam 165) + gam 12 <= / 2.
Local Notation sgap := (sgap2 nx ny lx ly H L m M).
Lemma gap_args2 : theta2 (o_env o0) H M m + gam 12 <= / 2 /\ (forall em er, stress_gap2 (o_env o0) H L M m em er = sgap em er) /\ (forall e, exists u b s, state2 (exact_env (o_env o0)) e u b 0 s).
Proof.
  destruct (built2 fuel0 q0 j nx ny nz mtype mp mt ps o0 H L m M A J C FA Hm Mo) as (Sv & (tol & EV) & FV & St & D & EN & PM).
  pose proof (eo_nx _ _ _ _ _ _ _ _ _ _ EV) as EX. pose proof (eo_ny _ _ _ _ _ _ _ _ _ _ EV) as EY. pose proof (eo_nz _ _ _ _ _ _ _ _ _ _ EV) as EZ.
  pose proof (eo_lx _ _ _ _ _ _ _ _ _ _ EV) as LX. pose proof (eo_ly _ _ _ _ _ _ _ _ _ _ EV) as LY. pose proof (eo_lz _ _ _ _ _ _ _ _ _ _ EV) as LZ. 
  destruct (body_W2 (o_env o0) H M FV D) as (BW & AW). pose proof BW as (SW & _ & DW).
  assert (Len : length (els2 (o_env o0)) = Z.to_nat ((nx - 1) * (ny - 1))).
  { apply INR_eq. rewrite (cells_len2 (o_env o0) (exact_env (o_env o0)) eq_refl eq_refl SW), INR_IZR_INZ. f_equal. cbn [exact_env v_nx v_ny v_nz]. pose proof (cells_dofs2 _ _ (sa_nx _ Sv) (sa_ny _ Sv)). rewrite EX, EY in *. lia. }
  split; [unfold theta2; rewrite LX, EN; exact Th|]. split.
  - intros em er. unfold stress_gap2, spread, size2, norm_bound, sgap2. cbv zeta. cbn [exact_env v_nx v_ny v_nz v_lx v_ly v_lz v_dx v_dy v_dz]. rewrite EN, Len, EX, EY, LX, LY. reflexivity.
  - intro e. exact (AsmEquil.equilibrium_exists2 (exact_env (o_env o0)) e BW AW).
Qed.
Theorem tangents_double2 : exists K : Z -> Z -> R, (forall v i, (0 <= v < 3)%Z -> (0 <= i < 3)%Z -> K v i = K i v) /\
  (forall e, exists u b s, state2 (exact_env (o_env o0)) e u b 0 s) /\
  (forall e u b s, state2 (exact_env (o_env o0)) e u b 0 s -> forall v, (0 <= v < 3)%Z -> lget s v = dot 3 (K v) (lget e)) /\
  forall cs o fs fuel q id e o' fs' r em g, reaches o0 cs o fs -> last_set id e cs -> p2 (-40) <= em <= p2 99 -> (forall v, (0 <= v < 3)%Z -> fin (lget e v) /\ Rabs (val (lget e v)) <= em) ->
  step (Homogenize fuel q) (o, fs) = Ok (o', fs', r) -> lookup id (o_gps o) = Some g -> ~ below o g ->
  exists g', lookup id (o_gps o') = Some g' /\ forall v i, (0 <= v < 3)%Z -> (0 <= i < 3)%Z ->
  exists er er' c, aget (g_err g') 0 = Some er /\ aget (g_err g') (1 + i) = Some er' /\ aget (g_ctan g') (v * 3 + i) = Some c /\
  (oltb er nr_tol = true -> oltb er' nr_tol = true -> fin c /\ let d := val d_eps in let k := Rabs (K v i) in
    ly * Rabs (val c - K v i) <= (1 + gam 2) / d * (sgap em er + sgap ((1 + uro) * (em + d)) er' + ly * (k * (uro * (em + d)))) + ly * (gam 2 * k + eta)).
Proof.
  destruct gap_args2 as (Th2 & Eg & Exi). destruct (double_tangents2 fuel0 q0 j nx ny nz mtype mp mt ps o0 H L m M A J C FA Hm Mo G Th2) as (K & Sy & Ex & Ap). exists K. split; [exact Sy|]. split; [exact Exi|]. split; [exact Ex|].
  intros cs o fs fuel q id e o' fs' r em g R0 Ls Em He Hs Lg Nb. destruct (Ap cs o fs fuel q id e o' fs' r em g R0 Ls Em He Hs Lg Nb) as (g' & Lg' & Q). exists g'. split; [exact Lg'|]. intros v i Hv Hi.
  destruct (Q v i Hv Hi) as (er & er' & c & Q1 & Q2 & Q3 & Q4). exists er, er', c. split; [exact Q1|]. split; [exact Q2|]. split; [exact Q3|]. intros T T'. destruct (Q4 T T') as (F & B). split; [exact F|]. cbv zeta. rewrite !Eg in B. exact B.
Qed.
Theorem linear_double2 : exists K : Z -> Z -> R, (forall v i, (0 <= v < 3)%Z -> (0 <= i < 3)%Z -> K v i = K i v) /\
  (forall e, exists u b s, state2 (exact_env (o_env o0)) e u b 0 s) /\
  (forall e u b s, state2 (exact_env (o_env o0)) e u b 0 s -> forall v, (0 <= v < 3)%Z -> lget s v = dot 3 (K v) (lget e)) /\
  exists ers : Z -> flt, let d := val d_eps in let gap v i := (1 + uro) / d * sgap ((1 + uro) * d) (ers i) + ly * (uro * Rabs (K v i) + eta) in
  (forall i, (0 <= i < 3)%Z -> exists w w' nl it s, wok (o_env o0) w /\ respond fuel0 (q0 i) (o_env o0) (bump 3 (zeros 3) i) w = Ok (w', nl, it, ers i, s)) /\
  (forall v i, (0 <= v < 3)%Z -> (0 <= i < 3)%Z -> oltb (ers i) nr_tol = true -> exists c, aget (o_ctan o0) (v * 3 + i) = Some c /\ fin c /\ ly * Rabs (val c - K v i) <= gap v i) /\
  ((forall i, (0 <= i < 3)%Z -> oltb (ers i) nr_tol = true) ->
   forall cs o fs fuel q id e o' fs' r em g, reaches o0 cs o fs -> last_set id e cs -> 0 <= em <= p2 60 -> (forall v, (0 <= v < 3)%Z -> fin (lget e v) /\ Rabs (val (lget e v)) <= em) ->
   step (Homogenize fuel q) (o, fs) = Ok (o', fs', r) -> lookup id (o_gps o) = Some g -> g_n g = None -> below o g ->
   exists ss, step (GetStress id) (o', fs') = Ok (o', fs', RBuf (Some ss)) /\ length ss = 3%nat /\ forall v, (0 <= v < 3)%Z -> fin (lget ss v) /\
     ly * Rabs (val (lget ss v) - dot 3 (K v) (fun i => val (lget e i))) <=
       (1 + gam 7) * (em * rsum (zrange 0 3) (gap v)) + gam 7 * (ly * (em * rsum (zrange 0 3) (fun i => Rabs (K v i)) + 6 * tiny))).
Proof.
  destruct gap_args2 as (Th2 & Eg & Exi). destruct (double_linear2 fuel0 q0 j nx ny nz mtype mp mt ps o0 H L m M A J C FA Hm Mo G Th2) as (K & Sy & Ex & ers & Ap). exists K. split; [exact Sy|]. split; [exact Exi|]. split; [exact Ex|].
  exists ers. cbv zeta in *. destruct Ap as (Q1 & Q2 & Q3). split; [exact Q1|]. split.
  - intros v i Hv Hi T. destruct (Q2 v i Hv Hi T) as (c & E & F & B). exists c. split; [exact E|]. split; [exact F|]. rewrite Eg in B. exact B.
  - intros T cs o fs fuel q id e o' fs' r em g R0 Ls Em He Hs Lg Nn Bl. destruct (Q3 T cs o fs fuel q id e o' fs' r em g R0 Ls Em He Hs Lg Nn Bl) as (ss & E & Ln & B). exists ss. split; [exact E|]. split; [exact Ln|]. intros v Hv. destruct (B v Hv) as (F & Bv). split; [exact F|].
    eapply Rle_trans; [exact Bv|]. unfold pred_gap. apply Req_le. f_equal. f_equal. f_equal. apply rsum_ext. intros i _. rewrite Eg. reflexivity.
Qed.
End Args2.
