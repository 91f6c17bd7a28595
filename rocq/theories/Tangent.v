(** The linear tangent computed by the constructor, in exact arithmetic. *)
From Coq Require Import Reals Lra ZifyBool.
From Verif Require Import Base Scalar EllSpec EllInit EllModel EllFinal Grid CgPure CgFinal CgProps AssemblyModel AsmPure AsmBnd AsmRun FemGen FemAve AsmMat FemMat FemMat2 FemDef FemPd FemRhs FemEquil PlastProps
  AsmEx PlastRef AsmSpec AsmProps AsmEquil AsmPoint AsmCases MicroModel OutputModel NewtonBase ApiBase ApiRun ApiHist Build ApiExact ApiSpec ApiProps ApiCases NewtonReal Thin ApiCommit OneCell RespondReal.
Open Scope Z_scope.
Open Scope R_scope.

(** ** Arguments that describe a body *)
Record body_args (dim : Z) (mp ps : list R) : Prop := {
  ba_lx : 0 < lget mp 0; ba_ly : 0 < lget mp 1; ba_lz : dim = 3%Z -> 0 < lget mp 2;
  ba_E0 : 0 < lget ps 0; ba_nu0 : -1 < lget ps 1 < 1 / 2; ba_E1 : 0 < lget ps 10; ba_nu1 : -1 < lget ps 11 < 1 / 2 }.
(** types 0 and 2 *)
Definition no_plastic (mt : list Z) : Prop := exists t0 t1 r, mt = t0 :: t1 :: r /\ (t0 = 0 \/ t0 = 2)%Z /\ (t1 = 0 \/ t1 = 2)%Z.

Lemma mat_adm t ps i : 0 < lget ps (i * 10) -> -1 < lget ps (i * 10 + 1) < 1 / 2 -> admissible (mat_i t ps i).
Proof. intros HE Hn. unfold mat_i, the_mat. constructor; cbn [m_E m_nu m_k m_mu m_lambda]; try lra; reflexivity. Qed.
Lemma mat_at_cases dim nx ny nz mtype mp mt ps tol V e : env_of dim nx ny nz mtype mp mt ps tol V -> exists t0 t1 r, mt = t0 :: t1 :: r /\
  (mat_at V e = mat_i t0 ps 0 \/ mat_at V e = mat_i t1 ps 1).
Proof.
  intros E. destruct (eo_mats _ _ _ _ _ _ _ _ _ _ E) as (t0 & t1 & r & Em & Ev). exists t0, t1, r. split; [exact Em|]. unfold mat_at. rewrite Ev.
  destruct (aget (v_etype V) e) as [[| |]|]; cbn; auto.
Qed.

Lemma built_adm dim nx ny nz mtype mp mt ps tol V : env_of dim nx ny nz mtype mp mt ps tol V -> body_args dim mp ps -> adm V.
Proof.
  intros E B e _. destruct (mat_at_cases _ _ _ _ _ _ _ _ _ _ e E) as (t0 & t1 & r & _ & [-> | ->]); apply mat_adm; apply B.
Qed.
Lemma built_linear dim nx ny nz mtype mp mt ps tol V : env_of dim nx ny nz mtype mp mt ps tol V -> no_plastic mt -> linear V.
Proof.
  intros E (s0 & s1 & r' & Em & H0 & H1) e _. unfold plastic_at. destruct (mat_at_cases _ _ _ _ _ _ _ _ _ _ e E) as (t0 & t1 & r & Em' & H).
  rewrite Em in Em'. injection Em' as <- <- <-. destruct H as [-> | ->]; unfold mat_i, the_mat; cbn [m_plast]; [destruct H0 as [-> | ->]|destruct H1 as [-> | ->]]; reflexivity.
Qed.
Lemma built_geom2 nx ny nz mtype mp mt ps tol V : (2 <= nx)%Z -> (2 <= ny)%Z -> env_of 2 nx ny nz mtype mp mt ps tol V -> 0 < lget mp 0 -> 0 < lget mp 1 -> geom V.
Proof.
  intros Hx Hy E L0 L1. pose proof (eo_nx _ _ _ _ _ _ _ _ _ _ E) as Ex. pose proof (eo_ny _ _ _ _ _ _ _ _ _ _ E) as Ey. pose proof (eo_dim _ _ _ _ _ _ _ _ _ _ E) as D.
  pose proof (eo_lx _ _ _ _ _ _ _ _ _ _ E) as Fx. pose proof (eo_ly _ _ _ _ _ _ _ _ _ _ E) as Fy.
  assert (0 < IZR (nx - 1)) by (apply (IZR_lt 0); lia). assert (0 < IZR (ny - 1)) by (apply (IZR_lt 0); lia).
  pose proof (eo_dx _ _ _ _ _ _ _ _ _ _ E) as Dx. pose proof (eo_dy _ _ _ _ _ _ _ _ _ _ E) as Dy.
  change (v_dx V = v_lx V / IZR (nx - 1)) in Dx. change (v_dy V = v_ly V / IZR (ny - 1)) in Dy.
  constructor; rewrite ?Ex, ?Ey, ?Dx, ?Dy, ?Fx, ?Fy; try (intros C; rewrite D in C; discriminate).
  - field. lra.
  - field. lra.
  - now apply Rdiv_lt_0_compat.
  - now apply Rdiv_lt_0_compat.
Qed.
Lemma built_body3 nx ny nz mtype mp mt ps tol V : sane V -> env_of 3 nx ny nz mtype mp mt ps tol V -> valid_args 3 nx ny nz mtype mp mt ps -> body_args 3 mp ps -> body3 V.
Proof.
  intros S E A B. destruct A. split; [exact S|]. split; [|exact (eo_dim _ _ _ _ _ _ _ _ _ _ E)].
  apply (built_geom3 nx ny nz mtype mp mt ps tol V); try assumption; try apply B; [destruct va_dim as [?|(_ & ?)]; lia|reflexivity].
Qed.
Lemma built_body2 nx ny nz mtype mp mt ps tol V : sane V -> env_of 2 nx ny nz mtype mp mt ps tol V -> valid_args 2 nx ny nz mtype mp mt ps -> body_args 2 mp ps -> body2 V.
Proof.
  intros S E A B. destruct A. split; [exact S|]. split; [|exact (eo_dim _ _ _ _ _ _ _ _ _ _ E)].
  apply (built_geom2 nx ny nz mtype mp mt ps tol V); try assumption; apply B.
Qed.

(** ** The columns *)
(** strain_i: d_eps in component i *)
Definition dstrain (n i : Z) : list R := bump n (AssemblyModel.zeros n) i.
Lemma columns fuel orc (j : junk R) dim nx ny nz mtype mp mt ps o : valid_args dim nx ny nz mtype mp mt ps -> total_junk j ->
  construct fuel orc j dim [nx; ny; nz] mtype mp mt ps = Ok o ->
  sane (o_env o) /\ (exists tol, env_of dim nx ny nz mtype mp mt ps tol (o_env o)) /\
  forall i, (0 <= i < nvoi (o_env o))%Z -> exists w w' nl it er s, wok (o_env o) w /\ (forall k, (0 <= k < nvars (o_env o))%Z -> aget (w_vold w) k = j_vold j k) /\
    respond fuel (orc i) (o_env o) (dstrain (nvoi (o_env o)) i) w = Ok (w', nl, it, er, s) /\
    forall v, (0 <= v < nvoi (o_env o))%Z -> aget (o_ctan o) (v * nvoi (o_env o) + i) = Some (lget s v / d_eps).
Proof.
  intros A J E. pose proof (construct_ok fuel orc j dim nx ny nz mtype mp mt ps A J) as H. rewrite E in H.
  destruct H as (F & (tol & Et & EV) & _ & _ & _ & A1 & EA & Ec). pose proof (ok_sane _ (proj1 F)) as S. split; [exact S|]. split; [eauto|].
  match type of Ec with calc_ctan_lin _ _ _ ?w0 _ = _ => set (w := w0) in *; assert (W : wfull (o_env o) w) end.
  { assert (Fo : full (alloc (j_vold j) (nvars (o_env o))) (nvars (o_env o))) by exact (alloc_full (j_vold j) _ (tj_old _ J)).
    split; [|split; [exact Fo|exact (alloc_full (j_vnew j) _ (tj_new _ J))]].
    constructor; cbn [w w_u w_du w_b w_A w_vold w_vnew]; try reflexivity.
    - exact (alloc_full (j_u j) _ (tj_u _ J)).
    - unfold is_mat. rewrite (eo_dim _ _ _ _ _ _ _ _ _ _ EV), (eo_nx _ _ _ _ _ _ _ _ _ _ EV), (eo_ny _ _ _ _ _ _ _ _ _ _ EV), (eo_nz _ _ _ _ _ _ _ _ _ _ EV).
      destruct (dim =? 2)%Z; exists A1, (e_vals A1); (split; [exact EA|split; [reflexivity|now destruct A1]]).
    - intros e g k He Hg Hk _. apply (proj2 Fo). pose proof (nvars_eq (o_env o)) as Q. unfold intvar_ix. nia. }
  pose proof (ctan_lin_ok (o_env o) fuel orc w (malloc 36) S W eq_refl) as X. rewrite Ec in X. destruct X as (_ & _ & _ & _ & X).
  intros i Hi. destruct (X i Hi) as (w1 & w2 & nl & it & er & s & W1 & O1 & R1 & G1). exists w1, w2, nl, it, er, s. split; [exact (proj1 W1)|]. split; [|split; [exact R1|exact G1]].
  intros k Hk. rewrite O1. cbn [w w_vold]. now apply alloc_get.
Qed.

(** each column is the stress of a nearly equilibrated state *)
Lemma tangent_states3 fuel orc (j : junk R) nx ny nz mtype mp mt ps o : valid_args 3 nx ny nz mtype mp mt ps -> body_args 3 mp ps -> no_plastic mt -> total_junk j ->
  construct fuel orc j 3 [nx; ny; nz] mtype mp mt ps = Ok o -> (nx * ny * nz * 3 < 2000)%Z -> (2 <= fuel)%nat -> (forall i, exists k, orc i 1%Z = Ok k /\ (k < 40)%Z) ->
  body3 (o_env o) /\ linear (o_env o) /\ adm (o_env o) /\
  forall i, (0 <= i < 6)%Z -> exists u vo b' n s, state3 (o_env o) (dstrain 6 i) u vo b' n s /\ n < 1 / 100000 /\
    forall v, (0 <= v < 6)%Z -> aget (o_ctan o) (v * 6 + i)%Z = Some (lget s v / d_eps).
Proof.
  intros A B NP J E Hn Hf Ho. destruct (columns fuel orc j 3 nx ny nz mtype mp mt ps o A J E) as (S & (tol & EV) & C).
  pose proof (built_body3 _ _ _ _ _ _ _ _ _ S EV A B) as BD. pose proof (built_linear _ _ _ _ _ _ _ _ _ _ EV NP) as L. pose proof (built_adm _ _ _ _ _ _ _ _ _ _ EV B) as Ad.
  split; [exact BD|]. split; [exact L|]. split; [exact Ad|]. pose proof BD as (_ & _ & D). assert (Nv : nvoi (o_env o) = 6%Z) by (unfold nvoi; now rewrite D). rewrite Nv in C.
  intros i Hi. destruct (C i Hi) as (w & w' & nl & it & er & s & K & _ & Re & G). destruct (Ho i) as (k & Ek & Hk).
  assert (Nd : (ndofs (o_env o) < 2000)%Z) by (rewrite (ndofs3 _ D), (eo_nx _ _ _ _ _ _ _ _ _ _ EV), (eo_ny _ _ _ _ _ _ _ _ _ _ EV), (eo_nz _ _ _ _ _ _ _ _ _ _ EV); exact Hn).
  destruct (respond_linear3 (o_env o) fuel (orc i) (dstrain 6 i) w k BD L Ad K Nd Hf Ek Hk) as (w2 & er2 & s2 & b' & n & Re2 & _ & St & Hn2).
  rewrite Re in Re2. injection Re2 as _ _ _ _ ->. exists (w_u w2), (w_vold w), b', n, s2. auto.
Qed.
Lemma tangent_states2 fuel orc (j : junk R) nx ny nz mtype mp mt ps o : valid_args 2 nx ny nz mtype mp mt ps -> body_args 2 mp ps -> total_junk j ->
  construct fuel orc j 2 [nx; ny; nz] mtype mp mt ps = Ok o -> (nx * ny * 2 < 2000)%Z -> (2 <= fuel)%nat -> (forall i, exists k, orc i 1%Z = Ok k /\ (k < 40)%Z) ->
  body2 (o_env o) /\ adm (o_env o) /\
  forall i, (0 <= i < 3)%Z -> exists u b' n s, state2 (o_env o) (dstrain 3 i) u b' n s /\ n < 1 / 100000 /\
    forall v, (0 <= v < 3)%Z -> aget (o_ctan o) (v * 3 + i)%Z = Some (lget s v / d_eps).
Proof.
  intros A B J E Hn Hf Ho. destruct (columns fuel orc j 2 nx ny nz mtype mp mt ps o A J E) as (S & (tol & EV) & C).
  pose proof (built_body2 _ _ _ _ _ _ _ _ _ S EV A B) as BD. pose proof (built_adm _ _ _ _ _ _ _ _ _ _ EV B) as Ad.
  split; [exact BD|]. split; [exact Ad|]. pose proof BD as (_ & _ & D). assert (Nv : nvoi (o_env o) = 3%Z) by (unfold nvoi; now rewrite D). rewrite Nv in C.
  intros i Hi. destruct (C i Hi) as (w & w' & nl & it & er & s & K & _ & Re & G). destruct (Ho i) as (k & Ek & Hk).
  assert (Nd : (ndofs (o_env o) < 2000)%Z) by (rewrite (ndofs2 _ S D), (eo_nx _ _ _ _ _ _ _ _ _ _ EV), (eo_ny _ _ _ _ _ _ _ _ _ _ EV); exact Hn).
  destruct (respond_linear2 (o_env o) fuel (orc i) (dstrain 3 i) w k BD Ad K Nd Hf Ek Hk) as (w2 & er2 & s2 & b' & n & Re2 & _ & St & Hn2).
  rewrite Re in Re2. injection Re2 as _ _ _ _ ->. exists (w_u w2), b', n, s2. auto.
Qed.

(** ** Distance to the exact tangent *)
(** unit strain *)
Definition unit (n v : Z) : list R := ltab n (fun i => if (i =? v)%Z then 1 else 0).
Lemma dot_unit n s v : (0 <= v < n)%Z -> dot n s (lget (unit n v)) = s v.
Proof.
  intros Hv. unfold dot. rewrite (rsum_ext _ _ (fun i => if (i =? v)%Z then s v else 0)).
  - rewrite (rsum_single _ _ v); [now rewrite Z.eqb_refl|apply NoDup_zrange|now apply in_zrange|]. intros x _ N. destruct (Z.eqb_spec x v); [contradiction|reflexivity].
  - intros i Hi. apply in_zrange in Hi. unfold unit. rewrite lget_ltab by lia. destruct (Z.eqb_spec i v) as [->|]; ring.
Qed.

Lemma dot_dstrain n s i : (0 <= i < n)%Z -> dot n s (lget (dstrain n i)) = s i * d_eps.
Proof.
  intros Hi. unfold dot. rewrite (rsum_single _ _ i); [|apply NoDup_zrange|now apply in_zrange|]; unfold dstrain, bump, AssemblyModel.zeros.
  - rewrite !lget_ltab by lia. rewrite Z.eqb_refl. change (s i * (0 + d_eps) = s i * d_eps). ring.
  - intros x Hx N. apply in_zrange in Hx. rewrite !lget_ltab by lia. destruct (Z.eqb_spec x i); [contradiction|]. change (s x * 0 = 0). ring.
Qed.
Theorem linear_tangent3 fuel orc (j : junk R) nx ny nz mtype mp mt ps o : valid_args 3 nx ny nz mtype mp mt ps -> body_args 3 mp ps -> no_plastic mt -> total_junk j ->
  construct fuel orc j 3 [nx; ny; nz] mtype mp mt ps = Ok o -> (nx * ny * nz * 3 < 2000)%Z -> (2 <= fuel)%nat -> (forall i, exists k, orc i 1%Z = Ok k /\ (k < 40)%Z) ->
  forall v i u vo b s a, (0 <= v < 6)%Z -> (0 <= i < 6)%Z -> state3 (o_env o) (unit 6 v) u vo b 0 s -> affine_all3 (o_env o) (unit 6 v) a ->
  exists c, aget (o_ctan o) (v * 6 + i)%Z = Some c /\
    Rabs (v_lx (o_env o) * v_ly (o_env o) * (c - lget s i)) <= 1000 * len (ndofs (o_env o)) (fun r => val u r - a r).
Proof.
  intros A B NP J E Hn Hf Ho v i u vo b s a Hv Hi St Aa.
  destruct (tangent_states3 fuel orc j nx ny nz mtype mp mt ps o A B NP J E Hn Hf Ho) as (BD & L & Ad & C).
  destruct (C i Hi) as (u1 & v1 & b1 & n1 & s1 & S1 & H1 & G). exists (lget s1 v / d_eps). split; [now apply G|].
  pose proof (affine_field3 (o_env o) (dstrain 6 i) BD) as A1.
  pose proof (reciprocity_body3 _ _ _ _ _ _ _ _ _ _ _ _ _ _ _ BD L S1 St A1 Aa) as H. rewrite Rmult_0_l, Rplus_0_r in H.
  rewrite (dot_unit 6 (lget s1) v Hv), (dot_dstrain 6 (lget s) i Hi) in H. pose proof deps_R as De. change d_eps with (@d_eps R ROps) in *. rewrite De in *.
  set (X := v_lx (o_env o) * v_ly (o_env o)) in *. set (l := len _ _) in *. assert (0 <= l) by apply sqrt_pos.
  replace (X * (lget s1 v / (1 / 100000000) - lget s i)) with (100000000 * (X * (lget s1 v - lget s i * (1 / 100000000)))) by field.
  rewrite Rabs_mult, (Rabs_right 100000000) by lra. assert (n1 * l <= 1 / 100000 * l) by (apply Rmult_le_compat_r; lra). lra.
Qed.

Theorem linear_tangent2 fuel orc (j : junk R) nx ny nz mtype mp mt ps o : valid_args 2 nx ny nz mtype mp mt ps -> body_args 2 mp ps -> total_junk j ->
  construct fuel orc j 2 [nx; ny; nz] mtype mp mt ps = Ok o -> (nx * ny * 2 < 2000)%Z -> (2 <= fuel)%nat -> (forall i, exists k, orc i 1%Z = Ok k /\ (k < 40)%Z) ->
  forall v i u b s a, (0 <= v < 3)%Z -> (0 <= i < 3)%Z -> state2 (o_env o) (unit 3 v) u b 0 s -> affine_all2 (o_env o) (unit 3 v) a ->
  exists c, aget (o_ctan o) (v * 3 + i)%Z = Some c /\
    Rabs (v_lx (o_env o) * v_ly (o_env o) * (c - lget s i)) <= 1000 * len (ndofs (o_env o)) (fun r => val u r - a r).
Proof.
  intros A B J E Hn Hf Ho v i u b s a Hv Hi St Aa.
  destruct (tangent_states2 fuel orc j nx ny nz mtype mp mt ps o A B J E Hn Hf Ho) as (BD & Ad & C).
  destruct (C i Hi) as (u1 & b1 & n1 & s1 & S1 & H1 & G). exists (lget s1 v / d_eps). split; [now apply G|].
  pose proof (affine_field2 (o_env o) (dstrain 3 i) BD) as A1.
  pose proof (reciprocity_body2 _ _ _ _ _ _ _ _ _ _ _ _ _ BD S1 St A1 Aa) as H. rewrite Rmult_0_l, Rplus_0_r in H.
  rewrite (dot_unit 3 (lget s1) v Hv), (dot_dstrain 3 (lget s) i Hi) in H. pose proof deps_R as De. change d_eps with (@d_eps R ROps) in *. rewrite De in *.
  set (X := v_lx (o_env o) * v_ly (o_env o)) in *. set (l := len _ _) in *. assert (0 <= l) by apply sqrt_pos.
  replace (X * (lget s1 v / (1 / 100000000) - lget s i)) with (100000000 * (X * (lget s1 v - lget s i * (1 / 100000000)))) by field.
  rewrite Rabs_mult, (Rabs_right 100000000) by lra. assert (n1 * l <= 1 / 100000 * l) by (apply Rmult_le_compat_r; lra). lra.
Qed.

(** the exact stresses of the unit strains are symmetric, so the computed tangent nearly is *)
Theorem tangent_symmetric3 fuel orc (j : junk R) nx ny nz mtype mp mt ps o : valid_args 3 nx ny nz mtype mp mt ps -> body_args 3 mp ps -> no_plastic mt -> total_junk j ->
  construct fuel orc j 3 [nx; ny; nz] mtype mp mt ps = Ok o -> (nx * ny * nz * 3 < 2000)%Z -> (2 <= fuel)%nat -> (forall i, exists k, orc i 1%Z = Ok k /\ (k < 40)%Z) ->
  forall v i u1 v1 b1 s1 a1 u2 v2 b2 s2 a2, (0 <= v < 6)%Z -> (0 <= i < 6)%Z ->
  state3 (o_env o) (unit 6 v) u1 v1 b1 0 s1 -> affine_all3 (o_env o) (unit 6 v) a1 -> state3 (o_env o) (unit 6 i) u2 v2 b2 0 s2 -> affine_all3 (o_env o) (unit 6 i) a2 ->
  exists c c', aget (o_ctan o) (v * 6 + i)%Z = Some c /\ aget (o_ctan o) (i * 6 + v)%Z = Some c' /\
    Rabs (v_lx (o_env o) * v_ly (o_env o) * (c - c')) <= 1000 * (len (ndofs (o_env o)) (fun r => val u1 r - a1 r) + len (ndofs (o_env o)) (fun r => val u2 r - a2 r)).
Proof.
  intros A B NP J E Hn Hf Ho v i u1 v1 b1 s1 a1 u2 v2 b2 s2 a2 Hv Hi S1 A1 S2 A2.
  destruct (linear_tangent3 fuel orc j nx ny nz mtype mp mt ps o A B NP J E Hn Hf Ho v i u1 v1 b1 s1 a1 Hv Hi S1 A1) as (c & Ec & H1).
  destruct (linear_tangent3 fuel orc j nx ny nz mtype mp mt ps o A B NP J E Hn Hf Ho i v u2 v2 b2 s2 a2 Hi Hv S2 A2) as (c' & Ec' & H2).
  destruct (tangent_states3 fuel orc j nx ny nz mtype mp mt ps o A B NP J E Hn Hf Ho) as (BD & L & _ & _).
  pose proof (reciprocity_body3 _ _ _ _ _ _ _ _ _ _ _ _ _ _ _ BD L S1 S2 A1 A2) as H. rewrite !Rmult_0_l, Rplus_0_r in H.
  rewrite (dot_unit 6 (lget s1) i Hi), (dot_unit 6 (lget s2) v Hv) in H.
  exists c, c'. split; [exact Ec|]. split; [exact Ec'|].
  set (X := v_lx (o_env o) * v_ly (o_env o)) in *. set (l1 := len _ (fun r => val u1 r - a1 r)) in *. set (l2 := len _ (fun r => val u2 r - a2 r)) in *.
  assert (H0 : X * (lget s1 i - lget s2 v) = 0) by (destruct (Req_dec (X * (lget s1 i - lget s2 v)) 0) as [Z|Z]; [exact Z|]; apply Rabs_pos_lt in Z; lra).
  replace (X * (c - c')) with (X * (c - lget s1 i) - X * (c' - lget s2 v)) by (replace (X * (c - c')) with (X * (c - c') - 0) by ring; rewrite <- H0; ring).
  pose proof (Rabs_triang (X * (c - lget s1 i)) (- (X * (c' - lget s2 v)))) as T. rewrite Rabs_Ropp in T. unfold Rminus at 1. lra.
Qed.

(** the exact stresses of the unit strains are symmetric, so the computed tangent nearly is *)
Theorem tangent_symmetric2 fuel orc (j : junk R) nx ny nz mtype mp mt ps o : valid_args 2 nx ny nz mtype mp mt ps -> body_args 2 mp ps -> total_junk j ->
  construct fuel orc j 2 [nx; ny; nz] mtype mp mt ps = Ok o -> (nx * ny * 2 < 2000)%Z -> (2 <= fuel)%nat -> (forall i, exists k, orc i 1%Z = Ok k /\ (k < 40)%Z) ->
  forall v i u1 b1 s1 a1 u2 b2 s2 a2, (0 <= v < 3)%Z -> (0 <= i < 3)%Z ->
  state2 (o_env o) (unit 3 v) u1 b1 0 s1 -> affine_all2 (o_env o) (unit 3 v) a1 -> state2 (o_env o) (unit 3 i) u2 b2 0 s2 -> affine_all2 (o_env o) (unit 3 i) a2 ->
  exists c c', aget (o_ctan o) (v * 3 + i)%Z = Some c /\ aget (o_ctan o) (i * 3 + v)%Z = Some c' /\
    Rabs (v_lx (o_env o) * v_ly (o_env o) * (c - c')) <= 1000 * (len (ndofs (o_env o)) (fun r => val u1 r - a1 r) + len (ndofs (o_env o)) (fun r => val u2 r - a2 r)).
Proof.
  intros A B J E Hn Hf Ho v i u1 b1 s1 a1 u2 b2 s2 a2 Hv Hi S1 A1 S2 A2.
  destruct (linear_tangent2 fuel orc j nx ny nz mtype mp mt ps o A B J E Hn Hf Ho v i u1 b1 s1 a1 Hv Hi S1 A1) as (c & Ec & H1).
  destruct (linear_tangent2 fuel orc j nx ny nz mtype mp mt ps o A B J E Hn Hf Ho i v u2 b2 s2 a2 Hi Hv S2 A2) as (c' & Ec' & H2).
  destruct (tangent_states2 fuel orc j nx ny nz mtype mp mt ps o A B J E Hn Hf Ho) as (BD & _ & _).
  pose proof (reciprocity_body2 _ _ _ _ _ _ _ _ _ _ _ _ _ BD S1 S2 A1 A2) as H. rewrite !Rmult_0_l, Rplus_0_r in H.
  rewrite (dot_unit 3 (lget s1) i Hi), (dot_unit 3 (lget s2) v Hv) in H.
  exists c, c'. split; [exact Ec|]. split; [exact Ec'|].
  set (X := v_lx (o_env o) * v_ly (o_env o)) in *. set (l1 := len _ (fun r => val u1 r - a1 r)) in *. set (l2 := len _ (fun r => val u2 r - a2 r)) in *.
  assert (H0 : X * (lget s1 i - lget s2 v) = 0) by (destruct (Req_dec (X * (lget s1 i - lget s2 v)) 0) as [Z|Z]; [exact Z|]; apply Rabs_pos_lt in Z; lra).
  replace (X * (c - c')) with (X * (c - lget s1 i) - X * (c' - lget s2 v)) by (replace (X * (c - c')) with (X * (c - c') - 0) by ring; rewrite <- H0; ring).
  pose proof (Rabs_triang (X * (c - lget s1 i)) (- (X * (c' - lget s2 v)))) as T. rewrite Rabs_Ropp in T. unfold Rminus at 1. lra.
Qed.

(** ** Two objects from the same arguments *)
Definition with_tol (t : R) (V : env R) : env R :=
  mkEnv (v_dim V) (v_nx V) (v_ny V) (v_nz V) (v_lx V) (v_ly V) (v_lz V) (v_dx V) (v_dy V) (v_dz V) (v_width V) t (v_type V) (v_mats V) (v_etype V).
Lemma same_env f1 f2 q1 q2 (j1 j2 : junk R) dim size mtype mp mt ps o1 o2 : construct f1 q1 j1 dim size mtype mp mt ps = Ok o1 -> construct f2 q2 j2 dim size mtype mp mt ps = Ok o2 ->
  o_env o2 = with_tol (v_inv_tol (o_env o2)) (o_env o1).
Proof.
  unfold construct, make_env. intros E1 E2.
  destruct (arg size 0) as [nx|]; cbn [bind] in E1, E2; [|discriminate]. destruct (arg size 1) as [ny|]; cbn [bind] in E1, E2; [|discriminate].
  destruct (if (dim =? 2)%Z then Ok 1%Z else arg size 2) as [nz|]; cbn [bind] in E1, E2; [|discriminate].
  destruct (arg mp 0) as [lx|]; cbn [bind] in E1, E2; [|discriminate]. destruct (arg mp 1) as [ly|]; cbn [bind] in E1, E2; [|discriminate].
  destruct (if (dim =? 2)%Z then Ok (dec 0 1) else arg mp 2) as [lz|]; cbn [bind] in E1, E2; [|discriminate].
  destruct (arg mp 3) as [wi|]; cbn [bind] in E1, E2; [|discriminate].
  destruct (of_option Uninit (j_tol j1)) as [t1|]; cbn [bind] in E1; [|discriminate]. destruct (of_option Uninit (j_tol j2)) as [t2|]; cbn [bind] in E2; [|discriminate].
  destruct (negb _); [discriminate|]. destruct (negb _); [discriminate|].
  destruct (mapM (arg mp) (zrange 0 5)) as [p5|]; cbn [bind] in E1, E2; [|discriminate].
  destruct (mapM (make_material mt ps) (zrange 0 2)) as [ms|]; cbn [bind] in E1, E2; [|discriminate].
  cbn [v_dim v_nx v_ny v_nz v_lx v_ly v_lz v_dx v_dy v_dz v_width v_inv_tol v_type v_mats v_etype] in E1, E2.
  match type of E2 with context [fill_types ?W] => set (V2 := W) in E2 end.
  match type of E1 with context [fill_types ?W] => set (V1 := W) in E1; change (fill_types V2) with (fill_types V1) in E2 end.
  destruct (fill_types V1) as [et|]; cbn [bind] in E1, E2; [|discriminate].
  destruct (if (dim =? 2)%Z then ell_init_2D 2 nx ny else ell_init_3D 3 nx ny nz) as [A|]; cbn [bind] in E1, E2; [|discriminate].
  match type of E1 with context [calc_ctan_lin ?a ?b ?c ?d ?e] => destruct (calc_ctan_lin a b c d e) as [r1|]; cbn [bind] in E1; [|discriminate] end.
  match type of E2 with context [calc_ctan_lin ?a ?b ?c ?d ?e] => destruct (calc_ctan_lin a b c d e) as [r2|]; cbn [bind] in E2; [|discriminate] end.
  injection E1 as <-. injection E2 as <-. reflexivity.
Qed.
Lemma state3_tol t V e u vo b n s : state3 V e u vo b n s -> state3 (with_tol t V) e u vo b n s.
Proof. exact (fun H => H). Qed.
Lemma state2_tol t V e u b n s : state2 V e u b n s -> state2 (with_tol t V) e u b n s.
Proof. exact (fun H => H). Qed.
Lemma affine3_tol t V e a : affine_all3 V e a -> affine_all3 (with_tol t V) e a.
Proof. exact (fun H => H). Qed.
Lemma affine2_tol t V e a : affine_all2 V e a -> affine_all2 (with_tol t V) e a.
Proof. exact (fun H => H). Qed.

(** whatever fresh memory held, for any number of iterations allowed *)
Theorem tangent_memory3 f1 f2 q1 q2 (j1 j2 : junk R) nx ny nz mtype mp mt ps o1 o2 : valid_args 3 nx ny nz mtype mp mt ps -> body_args 3 mp ps -> no_plastic mt -> total_junk j1 -> total_junk j2 ->
  construct f1 q1 j1 3 [nx; ny; nz] mtype mp mt ps = Ok o1 -> construct f2 q2 j2 3 [nx; ny; nz] mtype mp mt ps = Ok o2 ->
  (nx * ny * nz * 3 < 2000)%Z -> (2 <= f1)%nat -> (2 <= f2)%nat -> (forall i, exists k, q1 i 1%Z = Ok k /\ (k < 40)%Z) -> (forall i, exists k, q2 i 1%Z = Ok k /\ (k < 40)%Z) ->
  forall v i u vo b s a, (0 <= v < 6)%Z -> (0 <= i < 6)%Z -> state3 (o_env o1) (unit 6 v) u vo b 0 s -> affine_all3 (o_env o1) (unit 6 v) a ->
  exists c1 c2, aget (o_ctan o1) (v * 6 + i)%Z = Some c1 /\ aget (o_ctan o2) (v * 6 + i)%Z = Some c2 /\
    Rabs (lget mp 0 * lget mp 1 * (c1 - c2)) <= 2000 * len (ndofs (o_env o1)) (fun r => val u r - a r).
Proof.
  intros A B NP J1 J2 E1 E2 Hn Hf1 Hf2 Ho1 Ho2 v i u vo b s a Hv Hi St Aa.
  destruct (columns _ _ _ _ _ _ _ _ _ _ _ _ A J1 E1) as (_ & (tol & EV) & _).
  destruct (linear_tangent3 _ _ _ _ _ _ _ _ _ _ _ A B NP J1 E1 Hn Hf1 Ho1 v i u vo b s a Hv Hi St Aa) as (c1 & Ec1 & H1).
  pose proof (same_env _ _ _ _ _ _ _ _ _ _ _ _ _ _ E1 E2) as V2. set (t := v_inv_tol (o_env o2)) in V2. clearbody t.
  pose proof (state3_tol t _ _ _ _ _ _ _ St) as St2. pose proof (affine3_tol t _ _ _ Aa) as Aa2. rewrite <- V2 in St2, Aa2.
  destruct (linear_tangent3 _ _ _ _ _ _ _ _ _ _ _ A B NP J2 E2 Hn Hf2 Ho2 v i u vo b s a Hv Hi St2 Aa2) as (c2 & Ec2 & H2).
  exists c1, c2. split; [exact Ec1|]. split; [exact Ec2|]. rewrite V2 in H2. change (ndofs (with_tol t (o_env o1))) with (ndofs (o_env o1)) in H2.
  cbn [with_tol v_lx v_ly] in H2. rewrite (eo_lx _ _ _ _ _ _ _ _ _ _ EV), (eo_ly _ _ _ _ _ _ _ _ _ _ EV) in H1, H2.
  set (X := lget mp 0 * lget mp 1) in *. set (l := len _ _) in *.
  replace (X * (c1 - c2)) with (X * (c1 - lget s i) - X * (c2 - lget s i)) by ring.
  pose proof (Rabs_triang (X * (c1 - lget s i)) (- (X * (c2 - lget s i)))) as T. rewrite Rabs_Ropp in T. unfold Rminus at 1. lra.
Qed.

(** whatever fresh memory held, for any number of iterations allowed *)
Theorem tangent_memory2 f1 f2 q1 q2 (j1 j2 : junk R) nx ny nz mtype mp mt ps o1 o2 : valid_args 2 nx ny nz mtype mp mt ps -> body_args 2 mp ps -> total_junk j1 -> total_junk j2 ->
  construct f1 q1 j1 2 [nx; ny; nz] mtype mp mt ps = Ok o1 -> construct f2 q2 j2 2 [nx; ny; nz] mtype mp mt ps = Ok o2 ->
  (nx * ny * 2 < 2000)%Z -> (2 <= f1)%nat -> (2 <= f2)%nat -> (forall i, exists k, q1 i 1%Z = Ok k /\ (k < 40)%Z) -> (forall i, exists k, q2 i 1%Z = Ok k /\ (k < 40)%Z) ->
  forall v i u b s a, (0 <= v < 3)%Z -> (0 <= i < 3)%Z -> state2 (o_env o1) (unit 3 v) u b 0 s -> affine_all2 (o_env o1) (unit 3 v) a ->
  exists c1 c2, aget (o_ctan o1) (v * 3 + i)%Z = Some c1 /\ aget (o_ctan o2) (v * 3 + i)%Z = Some c2 /\
    Rabs (lget mp 0 * lget mp 1 * (c1 - c2)) <= 2000 * len (ndofs (o_env o1)) (fun r => val u r - a r).
Proof.
  intros A B J1 J2 E1 E2 Hn Hf1 Hf2 Ho1 Ho2 v i u b s a Hv Hi St Aa.
  destruct (columns _ _ _ _ _ _ _ _ _ _ _ _ A J1 E1) as (_ & (tol & EV) & _).
  destruct (linear_tangent2 _ _ _ _ _ _ _ _ _ _ _ A B J1 E1 Hn Hf1 Ho1 v i u b s a Hv Hi St Aa) as (c1 & Ec1 & H1).
  pose proof (same_env _ _ _ _ _ _ _ _ _ _ _ _ _ _ E1 E2) as V2. set (t := v_inv_tol (o_env o2)) in V2. clearbody t.
  pose proof (state2_tol t _ _ _ _ _ _ St) as St2. pose proof (affine2_tol t _ _ _ Aa) as Aa2. rewrite <- V2 in St2, Aa2.
  destruct (linear_tangent2 _ _ _ _ _ _ _ _ _ _ _ A B J2 E2 Hn Hf2 Ho2 v i u b s a Hv Hi St2 Aa2) as (c2 & Ec2 & H2).
  exists c1, c2. split; [exact Ec1|]. split; [exact Ec2|]. rewrite V2 in H2. change (ndofs (with_tol t (o_env o1))) with (ndofs (o_env o1)) in H2.
  cbn [with_tol v_lx v_ly] in H2. rewrite (eo_lx _ _ _ _ _ _ _ _ _ _ EV), (eo_ly _ _ _ _ _ _ _ _ _ _ EV) in H1, H2.
  set (X := lget mp 0 * lget mp 1) in *. set (l := len _ _) in *.
  replace (X * (c1 - c2)) with (X * (c1 - lget s i) - X * (c2 - lget s i)) by ring.
  pose proof (Rabs_triang (X * (c1 - lget s i)) (- (X * (c2 - lget s i)))) as T. rewrite Rabs_Ropp in T. unfold Rminus at 1. lra.
Qed.
