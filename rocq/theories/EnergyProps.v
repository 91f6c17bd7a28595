(** Existence of plastic equilibrium, the minimum principle and the effective law (C89, C90). *)
From Coq Require Import Reals Lra ZifyBool.
From Verif Require Import Base Scalar Grid EllModel EllSpec EllFinal EllProps CgPure CgFinal CgProps AssemblyModel AsmPure AsmBnd FemGen FemAve AsmRun AsmMat
  FemMat FemMat2 FemDef FemPd FemRhs FemEquil PlastProps AsmEx PlastRef AsmSpec AsmProps AsmPoint AsmEquil AsmCases MonoPoint MonoBody MonoUnif TanModel TanProps MonoEx
  ConvexMin EnergyPoint EnergyBody.
Open Scope Z_scope.
Open Scope R_scope.

(** every plastic Gauss point has a positive yield stress *)
Definition yield_pos (V : env R) (vold : arr R) : Prop :=
  forall ex ey ez g m, is_cell3 V ex ey ez -> (0 <= g < 8)%Z -> cell_mat V ex ey ez m -> m_plast m = Some true ->
  0 < m_Sy m + m_Ka m * val vold (var3 V ex ey ez g 6).
(** energy of a step from the history vold to the strains eps, mt being the material of each cell *)
Definition step_energy (V : env R) (mt : Z -> Z -> Z -> material R) (vold : arr R) (eps : Z -> Z -> Z -> Z -> Z -> R) : R :=
  quad_body3 V (fun ex ey ez g => match m_plast (mt ex ey ez) with
    | Some true => flow_energy (mt ex ey ez) (fun i => val vold (var3 V ex ey ez g i)) (val vold (var3 V ex ey ez g 6)) (eps ex ey ez g)
    | _ => elastic_energy (mt ex ey ez) (eps ex ey ez g) end).

Section Links.
Variables (V : env R) (vold : arr R).
Hypotheses (BD : body3 V) (AD : adm V).
Lemma yield_ynn : yield_ok V vold -> ynn V (val vold).
Proof.
  intros Y [[ex ey] ez] g Hc Hg P. pose proof BD as (S & G & D). apply in_els3 in Hc. pose proof (the_mat_ok V ex ey ez BD Hc) as Hm.
  destruct (cell_m V ex ey ez _ S D Hc Hm) as (_ & Ep). rewrite <- var3_ix. apply (Y ex ey ez g _ Hc Hg Hm). now apply Ep.
Qed.
Lemma yield_ypos : yield_pos V vold -> ypos V (val vold).
Proof.
  intros Y [[ex ey] ez] g Hc Hg P. pose proof BD as (S & G & D). apply in_els3 in Hc. pose proof (the_mat_ok V ex ey ez BD Hc) as Hm.
  destruct (cell_m V ex ey ez _ S D Hc Hm) as (_ & Ep). rewrite <- var3_ix. apply (Y ex ey ez g _ Hc Hg Hm). now apply Ep.
Qed.
Lemma yield_weaken : yield_pos V vold -> yield_ok V vold.
Proof. intros Y ex ey ez g m Hc Hg Hm P. specialize (Y ex ey ez g m Hc Hg Hm P). lra. Qed.
Lemma step_benergy mt eps w : (forall ex ey ez, is_cell3 V ex ey ez -> cell_mat V ex ey ez (mt ex ey ez)) -> full w (ndofs V) -> strain_field3 V w eps ->
  step_energy V mt vold eps = benergy V (val vold) (val w).
Proof.
  intros Mt Fw He. pose proof BD as (S & G & D). pose proof (proj1 (strain_field3_iff V w eps Fw D) He) as H0. unfold step_energy, benergy, integral3. apply quad_els3.
  intros ex ey ez g Hc Hg. destruct (cell_m V ex ey ez _ S D Hc (Mt _ _ _ Hc)) as (Em & Ep). unfold psi. rewrite Em.
  assert (X : forall i, (0 <= i < 6)%Z -> eps ex ey ez g i = str3 V (val w) (ex, ey, ez) g i) by (intros; now apply H0).
  destruct (plastic_at V (ix3 V (ex, ey, ez))) eqn:Pl.
  - rewrite (proj1 Ep eq_refl), var3_ix. apply flow_ext; [intros i _; now rewrite var3_ix|exact X].
  - destruct (m_plast (mt ex ey ez)) as [[|]|]; [pose proof (proj2 Ep eq_refl); discriminate|..]; now apply elastic_ext.
Qed.
Lemma state_of uf vnew e : vars_ok V vold vnew -> bndaff3 V e uf -> (forall r, (0 <= r < ndofs V)%Z -> balance3 V uf (val vold) r = 0) ->
  exists b' s, state3 V e (fun_arr (ndofs V) uf) vold b' 0 s.
Proof.
  intros W B B0. pose proof BD as (S & G & D). set (u := fun_arr (ndofs V) uf). set (b := fun_arr (ndofs V) (fun _ => 0)).
  assert (Ru : rep u (ndofs V) uf) by apply fun_arr_rep. pose proof (rep_full _ _ _ Ru) as Fu. pose proof (vars_old _ _ _ W) as O.
  destruct (residual3 V uf (val vold) u vold vnew b S D Ru O (proj2 W)) as (b' & nl & v1 & n & E & Rb & En); [apply fun_arr_rep|].
  destruct (ave_stress3 V u uf (val vold) vold vnew S G D Ru O (proj2 W)) as (s & v2 & Es & Hs).
  assert (N0 : n = 0).
  { rewrite En. rewrite rsum_zero; [apply sqrt_0|]. intros r Hr. apply in_zrange in Hr. rewrite (B0 r Hr). ring. }
  exists b', s. exists vnew, b, nl, v1, v2. split; [exact Fu|]. split; [exact W|]. split; [apply fun_arr_rep|]. split; [|rewrite N0 in E; split; assumption].
  intros i j k Hn Hf. pose proof Hn as (Hi & Hj & Hk).
  assert (X : forall c, (0 <= c < 3)%Z -> aget u (dof3 V i j k c) = Some (affine3 (lget e 0) (lget e 1) (lget e 2) (lget e 3) (lget e 4) (lget e 5) (IZR i * v_dx V) (IZR j * v_dy V) (IZR k * v_dz V) c)).
  { intros c Hc. rewrite (proj2 Ru) by now apply dof3_range. f_equal. pose proof (B i j k c Hi Hj Hk Hc) as Q. unfold cmp3 in Q. rewrite <- dof3_node in Q. apply Q.
    unfold on_face3 in Hf. unfold bnd3, on_bnd. tauto. }
  cbv zeta. rewrite !X by lia. unfold affine3. cbn [Z.eqb Pos.eqb]. repeat split; reflexivity.
Qed.
End Links.

Theorem equilibrium_exists3 V vold vnew e : body3 V -> adm V -> vars_ok V vold vnew -> yield_pos V vold ->
  exists s, (exists u b', state3 V e u vold b' 0 s) /\ forall u b' s', state3 V e u vold b' 0 s' -> forall v, (0 <= v < 6)%Z -> lget s' v = lget s v.
Proof.
  intros BD AD W Y. destruct (balanced_field V (val vold) BD AD e (yield_ypos V vold BD Y)) as (x & Hx).
  destruct (state_of V vold BD (fld V e x) vnew e W (fld_bnd V BD e x) Hx) as (b' & s & St). exists s. split; [eauto|].
  intros u b1 s' St' v Hv. pose proof BD as (S & G & D).
  assert (Fu : full u (ndofs V)) by (destruct St' as (?&?&?&?&?&F&_); exact F).
  assert (Fu0 : full (fun_arr (ndofs V) (fld V e x)) (ndofs V)) by (destruct St as (?&?&?&?&?&F&_); exact F).
  refine (proj2 (unique_stress3 V vold vnew e u b1 s' _ _ b' s _ BD AD (yield_weaken V vold Y) St' St W _ _) v Hv).
  - apply stress_field3_iff; try assumption. intros; reflexivity.
  - apply stress_field3_iff; try assumption. intros; reflexivity.
Qed.

Theorem energy_bound3 V vold mt e1 u b' n s eps e2 w eta a1 a2 : body3 V -> adm V -> yield_ok V vold ->
  (forall ex ey ez, is_cell3 V ex ey ez -> cell_mat V ex ey ez (mt ex ey ez)) ->
  state3 V e1 u vold b' n s -> strain_field3 V u eps -> full w (ndofs V) -> affine_bnd3 V e2 w -> strain_field3 V w eta ->
  affine_all3 V e1 a1 -> affine_all3 V e2 a2 ->
  step_energy V mt vold eps + v_lx V * v_ly V * dot 6 (lget s) (fun i => lget e2 i - lget e1 i)
    <= step_energy V mt vold eta + n * len (ndofs V) (fun r => (val w r - a2 r) - (val u r - a1 r)).
Proof.
  intros BD AD Y Mt St He Fw Bw Hw A1 A2. pose proof BD as (S & G & D).
  destruct (state3_parts V e1 u vold b' n s BD St) as (U & O & Bu & Vb & N & Hs).
  assert (Fu : full u (ndofs V)) by now apply rep_full in U.
  rewrite (step_benergy V vold BD mt eps u Mt Fu He), (step_benergy V vold BD mt eta w Mt Fw Hw).
  pose proof (energy_sub V (val vold) BD AD (val u) e1 (val w) e2 (yield_ynn V vold BD Y) Bu (affine_bndaff3 V e2 w D Bw)) as H.
  assert (E1 : rsum (zrange 0 6) (fun v => integral3 V (fun c g => gs3 V (val u) (val vold) c g v) * (lget e2 v - lget e1 v)) =
    v_lx V * v_ly V * dot 6 (lget s) (fun i => lget e2 i - lget e1 i)).
  { unfold dot. rewrite <- rsum_scal. apply rsum_ext. intros v Hv. apply in_zrange in Hv. rewrite <- (Hs v Hv). ring. }
  rewrite E1 in H. clear E1.
  set (d := fun r => (val w r - a2 r) - (val u r - a1 r)).
  assert (E2 : rsum (zrange 0 (ndofs V)) (fun r => balance3 V (val u) (val vold) r * ((val w r - afield3 V e2 r) - (val u r - afield3 V e1 r))) =
    rsum (zrange 0 (ndofs V)) (fun r => val b' r * d r)).
  { apply rsum_ext. intros r Hr. apply in_zrange in Hr. rewrite (Vb r Hr). unfold d.
    now rewrite (affine_all_field3 V e2 a2 r S D A2 Hr), (affine_all_field3 V e1 a1 r S D A1 Hr). }
  rewrite E2 in H. clear E2. pose proof (cauchy (ndofs V) (val b') d) as C. rewrite <- N in C.
  apply abs_bound in C. lra.
Qed.

Theorem minimum_iff3 V vold vnew mt e u eps : body3 V -> adm V -> yield_ok V vold -> vars_ok V vold vnew ->
  (forall ex ey ez, is_cell3 V ex ey ez -> cell_mat V ex ey ez (mt ex ey ez)) ->
  full u (ndofs V) -> affine_bnd3 V e u -> strain_field3 V u eps ->
  (exists b' s, state3 V e u vold b' 0 s) <->
  (forall w eta, full w (ndofs V) -> affine_bnd3 V e w -> strain_field3 V w eta -> step_energy V mt vold eps <= step_energy V mt vold eta).
Proof.
  intros BD AD Y W Mt Fu Bu He. pose proof BD as (S & G & D). split.
  - intros (b' & s & St) w eta Fw Bw Hw.
    pose proof (energy_bound3 V vold mt e u b' 0 s eps e w eta (afield3 V e) (afield3 V e) BD AD Y Mt St He Fw Bw Hw (affine_field3 V e BD) (affine_field3 V e BD)) as H.
    rewrite dot6, !Rminus_eq_0, !Rmult_0_r, !Rplus_0_r, Rmult_0_r, Rmult_0_l in H. lra.
  - intros Min. pose proof (affine_bndaff3 V e u D Bu) as Ba.
    assert (B0 : forall r, (0 <= r < ndofs V)%Z -> balance3 V (val u) (val vold) r = 0).
    { apply (minimal_balanced V (val vold) BD AD e (val u) (yield_ynn V vold BD Y) Ba). intros wf Bw.
      set (w := fun_arr (ndofs V) wf). assert (Rw : rep w (ndofs V) wf) by apply fun_arr_rep. pose proof (rep_full _ _ _ Rw) as Fw.
      set (eta := fun ex ey ez g v => str3 V (val w) (ex, ey, ez) g v).
      assert (Hw : strain_field3 V w eta) by (apply strain_field3_iff; auto).
      assert (Ew : benergy V (val vold) (val w) = benergy V (val vold) wf).
      { apply integral_ext. intros c g Hc Hg. apply psi_ext. intros i _. apply mstrain_ext. intros j Hj. apply (rep_val w (ndofs V)); [exact Rw|]. rewrite (ndofs3 V D). now apply (addr3_range V c j). }
      rewrite <- Ew, <- (step_benergy V vold BD mt eps u Mt Fu He), <- (step_benergy V vold BD mt eta w Mt Fw Hw). apply (Min w eta Fw); [|exact Hw].
      intros i j k Hn Hf. pose proof Hn as (Hi & Hj & Hk).
      assert (X : forall c, (0 <= c < 3)%Z -> aget w (dof3 V i j k c) = Some (affine3 (lget e 0) (lget e 1) (lget e 2) (lget e 3) (lget e 4) (lget e 5) (IZR i * v_dx V) (IZR j * v_dy V) (IZR k * v_dz V) c)).
      { intros c Hc. rewrite (proj2 Rw) by now apply dof3_range. f_equal. pose proof (Bw i j k c Hi Hj Hk Hc) as Q. unfold cmp3 in Q. rewrite <- dof3_node in Q. apply Q.
        unfold on_face3 in Hf. unfold bnd3, on_bnd. tauto. }
      cbv zeta. rewrite !X by lia. unfold affine3. cbn [Z.eqb Pos.eqb]. repeat split; reflexivity. }
    pose proof (full_rep _ _ Fu) as Ru. pose proof (vars_old _ _ _ W) as O.
    destruct (residual3 V (val u) (val vold) u vold vnew (fun_arr (ndofs V) (fun _ => 0)) S D Ru O (proj2 W)) as (b' & nl & v1 & n & E & Rb & En); [apply fun_arr_rep|].
    destruct (ave_stress3 V u (val u) (val vold) vold vnew S G D Ru O (proj2 W)) as (s & v2 & Es & _).
    assert (N0 : n = 0).
    { rewrite En. rewrite rsum_zero; [apply sqrt_0|]. intros r Hr. apply in_zrange in Hr. rewrite (B0 r Hr). ring. }
    exists b', s, vnew, (fun_arr (ndofs V) (fun _ => 0)), nl, v1, v2. split; [exact Fu|]. split; [exact W|]. split; [apply fun_arr_rep|]. split; [exact Bu|]. rewrite N0 in E. split; assumption.
Qed.

(** the effective law is Lipschitz *)
Theorem effective_lipschitz3 V vold e1 u1 b1 s1 e2 u2 b2 s2 M v :
  body3 V -> adm V -> yield_ok V vold -> state3 V e1 u1 vold b1 0 s1 -> state3 V e2 u2 vold b2 0 s2 ->
  (forall ex ey ez m, is_cell3 V ex ey ez -> cell_mat V ex ey ez m -> 2 * m_mu m <= M /\ 3 * (m_lambda m + 2 * m_mu m / 3) <= M) -> (0 <= v < 6)%Z ->
  Rabs (lget s1 v - lget s2 v) <= v_lz V * M * rsum (zrange 0 6) (fun i => Rabs (lget e1 i - lget e2 i)).
Proof.
  intros BD AD YO St1 St2 HM Hv. pose proof BD as (S & G & D). pose proof St1 as (vnew & _ & _ & _ & _ & Fu1 & W & _). pose proof St2 as (_ & _ & _ & _ & _ & Fu2 & _).
  assert (Mt : forall ex ey ez, is_cell3 V ex ey ez -> cell_mat V ex ey ez (the_mat V ex ey ez)) by (intros; now apply the_mat_ok).
  set (sig1 := fun ex ey ez g v => gs3 V (val u1) (val vold) (ex, ey, ez) g v). set (sig2 := fun ex ey ez g v => gs3 V (val u2) (val vold) (ex, ey, ez) g v).
  assert (F1 : stress_field3 V u1 vold vnew sig1) by (apply stress_field3_iff; auto).
  assert (F2 : stress_field3 V u2 vold vnew sig2) by (apply stress_field3_iff; auto).
  destruct (mono_body3 V vold vnew e1 e2 u1 u2 b1 b2 0 0 s1 s2 sig1 sig2 (the_mat V) (afield3 V e1) (afield3 V e2) BD AD YO St1 St2 W F1 F2 Mt
    (affine_field3 V e1 BD) (affine_field3 V e2 BD)) as (H & _).
  rewrite Rplus_0_l, Rmult_0_l, Rplus_0_r in H.
  destruct (state3_parts V e1 u1 vold b1 0 s1 BD St1) as (_ & _ & _ & _ & _ & Hs1).
  destruct (state3_parts V e2 u2 vold b2 0 s2 BD St2) as (_ & _ & _ & _ & _ & Hs2).
  destruct (geom_pos V S G) as (Px & Py). pose proof (geom_posz V S G D) as Pz. assert (P : 0 < v_lx V * v_ly V) by now apply Rmult_lt_0_compat.
  assert (M0 : 0 < M).
  { pose proof (first_cell V BD) as Hc. destruct (HM 0 0 0 _ Hc (Mt _ _ _ Hc))%Z as (M1 & _). pose proof (adm_mu _ (mt_adm V _ BD AD Mt _ _ _ Hc)). lra. }
  set (dS := fun i => lget s1 i - lget s2 i) in *. set (dE := fun i => lget e1 i - lget e2 i) in *.
  set (C := quad_body3 V (fun ex ey ez g => compliance (the_mat V ex ey ez) (fun i => sig1 ex ey ez g i - sig2 ex ey ez g i))) in *.
  assert (L : forall i, (0 <= i < 6)%Z -> dS i * dS i <= v_lz V * M * dot 6 dS dE).
  { intros i Hi. set (ds := fun ex ey ez g => sig1 ex ey ez g i - sig2 ex ey ez g i).
    assert (I : v_lx V * v_ly V * dS i = quad_body3 V ds).
    { unfold dS. rewrite Rmult_minus_distr_l, (Hs1 i Hi), (Hs2 i Hi). unfold ds. rewrite quad_minus. f_equal; symmetry; now apply quad_els3. }
    pose proof (quad_cs V ds BD) as CS. rewrite <- I in CS.
    assert (L : quad_body3 V (fun ex ey ez g => ds ex ey ez g * ds ex ey ez g) <= M * C).
    { unfold C. rewrite <- quad_scal. apply quad_le; [exact BD|]. intros ex ey ez g Hc Hg. pose proof (mt_adm V _ BD AD Mt ex ey ez Hc) as A.
      destruct (HM ex ey ez _ Hc (Mt ex ey ez Hc)) as (M1 & M2). unfold ds.
      exact (sq_compl (the_mat V ex ey ez) (fun i => sig1 ex ey ez g i - sig2 ex ey ez g i) M i (adm_mu _ A) ltac:(rewrite adm_bulk by assumption; now apply adm_k) M1 M2 Hi). }
    assert (Q : v_lx V * v_ly V * dS i * (v_lx V * v_ly V * dS i) <= v_lx V * v_ly V * v_lz V * (M * (v_lx V * v_ly V * dot 6 dS dE))).
    { eapply Rle_trans; [exact CS|]. apply Rmult_le_compat_l; [left; now apply Rmult_lt_0_compat|]. eapply Rle_trans; [exact L|]. apply Rmult_le_compat_l; lra. }
    apply (Rmult_le_reg_l (v_lx V * v_ly V * (v_lx V * v_ly V))); [now apply Rmult_lt_0_compat|]. lra. }
  set (K := v_lz V * M). assert (K0 : 0 < K) by (apply Rmult_lt_0_compat; assumption). fold K in L.
  set (T := rsum (zrange 0 6) (fun i => Rabs (dE i))).
  destruct (has_max (zrange 0 6) dS) as [Z0|(r0 & H1 & H2 & H3)].
  - change (lget s1 v - lget s2 v) with (dS v). rewrite Z0 by now apply in_zrange. rewrite Rabs_R0. apply Rmult_le_pos; [lra|]. apply rsum_nonneg. intros; apply Rabs_pos.
  - change (lget s1 v - lget s2 v) with (dS v). eapply Rle_trans; [apply H3; now apply in_zrange|].
    set (N := Rabs (dS r0)) in *. apply in_zrange in H1. specialize (L r0 H1).
    assert (Sq : dS r0 * dS r0 = N * N) by (unfold N; rewrite <- Rabs_mult; symmetry; apply Rabs_pos_eq, Rle_0_sqr).
    assert (Dt : dot 6 dS dE <= N * T).
    { pose proof (rsum_abs_le (zrange 0 6) dE dS N H3) as A. fold T in A. unfold dot. eapply Rle_trans; [|rewrite Rmult_comm; exact A].
      eapply Rle_trans; [|apply Rle_abs]. right. apply rsum_ext. intros; ring. }
    apply (Rmult_le_reg_l N); [exact H2|]. rewrite <- Sq. eapply Rle_trans; [exact L|].
    change (K * dot 6 dS dE <= N * (K * T)). replace (N * (K * T)) with (K * (N * T)) by ring. apply Rmult_le_compat_l; lra.
Qed.

(** ** convergence: small residual, nearly the exact stress *)
Lemma len_abs n f : len n f <= rsum (zrange 0 n) (fun r => Rabs (f r)).
Proof.
  assert (H : forall l : list Z, sqrt (rsum l (fun r => f r * f r)) <= rsum l (fun r => Rabs (f r))); [|apply H].
  induction l as [|a l IH]; cbn [rsum]; [rewrite sqrt_0; lra|].
  assert (S0 : 0 <= rsum l (fun r => f r * f r)) by (apply rsum_nonneg; intros; apply Rle_0_sqr).
  assert (A0 : 0 <= rsum l (fun r => Rabs (f r))) by (apply rsum_nonneg; intros; apply Rabs_pos). pose proof (Rabs_pos (f a)) as P0.
  rewrite <- (sqrt_Rsqr (Rabs (f a) + rsum l (fun r => Rabs (f r)))) by lra. apply sqrt_le_1_alt.
  assert (E : rsum l (fun r => f r * f r) <= rsum l (fun r => Rabs (f r)) * rsum l (fun r => Rabs (f r))).
  { rewrite <- (sqrt_sqrt _ S0). apply Rmult_le_compat; try exact IH; apply sqrt_pos. }
  assert (Q : f a * f a = Rabs (f a) * Rabs (f a)) by (rewrite <- Rabs_mult; symmetry; apply Rabs_pos_eq, Rle_0_sqr).
  rewrite Q. unfold Rsqr. assert (0 <= Rabs (f a) * rsum l (fun r => Rabs (f r))) by (apply Rmult_le_pos; lra). lra.
Qed.
Lemma modulus_bound V : body3 V -> exists M, 0 <= M /\
  forall ex ey ez m, is_cell3 V ex ey ez -> cell_mat V ex ey ez m -> 2 * m_mu m <= M /\ 3 * (m_lambda m + 2 * m_mu m / 3) <= M.
Proof.
  intros BD. pose proof BD as (S & G & D).
  destruct (finite_bound (els3 V) (fun _ : unit => True) (fun c _ => 2 * m_mu (mat_at V (ix3 V c)))) as (b1 & B1 & H1); [intros; eexists; intros; apply Rle_refl|].
  destruct (finite_bound (els3 V) (fun _ : unit => True) (fun c _ => 3 * (m_lambda (mat_at V (ix3 V c)) + 2 * m_mu (mat_at V (ix3 V c)) / 3))) as (b2 & B2 & H2); [intros; eexists; intros; apply Rle_refl|].
  exists (b1 + b2). split; [lra|]. intros ex ey ez m Hc Hm. destruct (cell_m V ex ey ez m S D Hc Hm) as (E & _). apply in_els3 in Hc.
  specialize (H1 _ Hc tt I). specialize (H2 _ Hc tt I). cbv beta in H1, H2. rewrite E in H1, H2. lra.
Qed.
Theorem convergence3 V vold vnew e : body3 V -> adm V -> vars_ok V vold vnew -> yield_pos V vold ->
  exists s K d, 0 <= K /\ 0 < d /\ (exists u b', state3 V e u vold b' 0 s) /\
  forall u b' n s', state3 V e u vold b' n s' -> n <= d ->
    (forall v, (0 <= v < 6)%Z -> (lget s' v - lget s v) * (lget s' v - lget s v) <= K * n) /\
    (forall a, affine_all3 V e a -> forall r, (0 <= r < ndofs V)%Z -> Rabs (val u r - a r) <= K).
Proof.
  intros BD AD W Y. pose proof BD as (S & G & D). destruct (equilibrium_exists3 V vold vnew e BD AD W Y) as (s & (u0 & b0 & St0) & _).
  destruct (near_field V (val vold) BD AD e (yield_ypos V vold BD Y)) as (B & d & B0 & d0 & Hd).
  destruct (modulus_bound V BD) as (M & M0 & HM). destruct (geom_pos V S G) as (Px & Py). pose proof (geom_posz V S G D) as Pz. assert (P : 0 < v_lx V * v_ly V) by now apply Rmult_lt_0_compat.
  assert (Near : forall u b' n s', state3 V e u vold b' n s' -> n <= d -> 0 <= n /\ forall r, (0 <= r < ndofs V)%Z -> Rabs (val u r - afield3 V e r) <= B).
  { intros u b' n s' St Hn. destruct (state3_parts V e u vold b' n s' BD St) as (U & O & Bu & Vb & N & Hs).
    assert (n0 : 0 <= n) by (rewrite N; apply sqrt_pos). split; [exact n0|]. apply (Hd (val u) n); [lra|exact Bu|].
    pose proof (energy_sub V (val vold) BD AD (val u) e (afield3 V e) e (yield_ynn V vold BD (yield_weaken V vold Y)) Bu) as H. specialize (H (bndaff3_afield V e)).
    rewrite (rsum_zero (zrange 0 6)) in H by (intros; ring).
    assert (E2 : rsum (zrange 0 (ndofs V)) (fun r => balance3 V (val u) (val vold) r * (afield3 V e r - afield3 V e r - (val u r - afield3 V e r))) =
      - rsum (zrange 0 (ndofs V)) (fun r => val b' r * (val u r - afield3 V e r))).
    { rewrite <- rsum_opp. apply rsum_ext. intros r Hr. apply in_zrange in Hr. rewrite (Vb r Hr). ring. }
    rewrite E2 in H. pose proof (cauchy (ndofs V) (val b') (fun r => val u r - afield3 V e r)) as C. rewrite <- N in C. apply abs_bound in C.
    pose proof (len_abs (ndofs V) (fun r => val u r - afield3 V e r)) as LA. apply (Rmult_le_compat_l n) in LA; [|exact n0]. lra. }
  destruct (Near u0 b0 0 s St0 ltac:(lra)) as (_ & N0).
  set (C := rsum (zrange 0 (ndofs V)) (fun _ => 2 * B)). assert (C0 : 0 <= C) by (apply rsum_nonneg; intros; lra).
  set (K1 := v_lz V * M * C / (v_lx V * v_ly V)).
  assert (K0 : 0 <= K1) by (unfold K1, Rdiv; apply Rmult_le_pos; [apply Rmult_le_pos; [apply Rmult_le_pos; lra|exact C0]|left; now apply Rinv_0_lt_compat]).
  exists s, (K1 + B), d. split; [lra|]. split; [exact d0|]. split; [eauto|]. intros u b' n s' St Hn. destruct (Near u b' n s' St Hn) as (n0 & N1). split.
  - intros v Hv. pose proof (near_stress3 V vold e u b' n s' u0 b0 0 s M v BD AD (yield_weaken V vold Y) St St0 HM Hv) as H. rewrite Rplus_0_r in H.
    assert (LL : len (ndofs V) (fun r => val u r - val u0 r) <= C).
    { eapply Rle_trans; [apply len_abs|]. unfold C. apply rsum_le. intros r Hr. apply in_zrange in Hr. specialize (N0 r Hr). specialize (N1 r Hr).
      replace (val u r - val u0 r) with ((val u r - afield3 V e r) + - (val u0 r - afield3 V e r)) by ring. eapply Rle_trans; [apply Rabs_triang|]. rewrite Rabs_Ropp. lra. }
    assert (Q : v_lz V * M * (n * len (ndofs V) (fun r => val u r - val u0 r)) <= v_lz V * M * (n * C)).
    { apply Rmult_le_compat_l; [apply Rmult_le_pos; lra|]. apply Rmult_le_compat_l; assumption. }
    assert (X : (lget s' v - lget s v) * (lget s' v - lget s v) <= K1 * n).
    { apply (Rmult_le_reg_l (v_lx V * v_ly V)); [exact P|]. replace (v_lx V * v_ly V * (K1 * n)) with (v_lz V * M * (n * C)) by (unfold K1; field; lra). lra. }
    assert (0 <= B * n) by (apply Rmult_le_pos; lra). lra.
  - intros a A r Hr. rewrite (affine_all_field3 V e a r S D A Hr). specialize (N1 r Hr). lra.
Qed.

(** ** a body of alternating linear and plastic cells with a plastic history *)
Definition mixed : env R := box 3 4 5 3 1 2 3 soft one.
Lemma mixed_body : body3 mixed.
Proof. split; [|split; [|reflexivity]]; [exact (box_sane 3 4 5 3 1 2 3 soft one gb3 false true eq_refl eq_refl)|apply (box_geom 3 4 5 3 1 2 3 soft one gb3); lra]. Qed.
Lemma mixed_adm : adm mixed. Proof. exact (box_adm 3 4 5 3 1 2 3 soft one soft_adm one_adm). Qed.
Lemma mixed_vars y : vars_ok mixed (sheared y) junk56.
Proof.
  destruct (bar_vars y) as (H & L). split; [|exact L]. intros c g i Hc Hg Hi _. apply (H c g i Hc Hg Hi).
  exact (box_plastic 3 4 5 3 1 2 3 one one c true eq_refl eq_refl Hc).
Qed.
Lemma mixed_at c : (0 <= c < ncells mixed)%Z -> mat_at mixed c = soft \/ mat_at mixed c = one.
Proof. intros Hc. exact (box_mat_in 3 4 5 3 1 2 3 soft one c Hc). Qed.
Lemma mixed_cell ex ey ez m : is_cell3 mixed ex ey ez -> cell_mat mixed ex ey ez m -> m = soft \/ m = one.
Proof.
  intros Hc Hm. pose proof mixed_body as (S & G & D). destruct (cell_m mixed ex ey ez m S D Hc Hm) as (<- & _). apply mixed_at.
  apply (ix3_range mixed _ D). now apply in_els3.
Qed.
Lemma mixed_yield y : yield_pos mixed (sheared y).
Proof.
  intros ex ey ez g m Hc Hg Hm P. destruct (mixed_cell ex ey ez m Hc Hm) as [-> | ->]; [discriminate P|].
  destruct (bar_hist y) as (_ & _ & H2). destruct (H2 ex ey ez g Hc Hg) as (_ & Q2).
  assert (E2 : val (sheared y) (var3 mixed ex ey ez g 6) = 0) by (unfold val; change (var3 mixed ex ey ez g 6) with (var3 bar ex ey ez g 6); now rewrite Q2).
  rewrite E2. unfold one, mat1, elas; cbn [m_Sy m_Ka]. lra.
Qed.
Lemma mixed_kinds : cell_mat mixed 0 0 0 soft /\ cell_mat mixed 1 0 0 one /\ m_plast soft = Some false /\ m_plast one = Some true.
Proof.
  pose proof mixed_body as (S & G & D). assert (N : ncells mixed = 24%Z) by reflexivity.
  assert (C0 : is_cell3 mixed 0 0 0) by (unfold is_cell3; cbn; lia). assert (C1 : is_cell3 mixed 1 0 0) by (unfold is_cell3; cbn; lia).
  pose proof (the_mat_ok mixed 0 0 0 mixed_body C0) as M0. pose proof (the_mat_ok mixed 1 0 0 mixed_body C1) as M1.
  destruct (cell_m mixed 0 0 0 _ S D C0 M0) as (E0 & _). destruct (cell_m mixed 1 0 0 _ S D C1 M1) as (E1 & _).
  assert (B0 : mat_at mixed 0 = soft) by exact (box_mat 3 4 5 3 1 2 3 soft one 0 ltac:(unfold mixed in N; rewrite N; lia)).
  assert (B1 : mat_at mixed 1 = one) by exact (box_mat 3 4 5 3 1 2 3 soft one 1 ltac:(unfold mixed in N; rewrite N; lia)).
  change (ix3 mixed (0, 0, 0)%Z) with 0%Z in E0. change (ix3 mixed (1, 0, 0)%Z) with 1%Z in E1. rewrite B0 in E0. rewrite B1 in E1. rewrite <- E0 in M0. rewrite <- E1 in M1.
  split; [exact M0|]. split; [exact M1|]. split; reflexivity.
Qed.
Lemma mixed_state e y : exists u b s, state3 mixed e u (sheared y) b 0 s.
Proof. destruct (equilibrium_exists3 mixed (sheared y) junk56 e mixed_body mixed_adm (mixed_vars y) (mixed_yield y)) as (s & (u & b & H) & _). eauto. Qed.
Lemma mixed_ex : body3 mixed /\ adm mixed /\ vars_ok mixed (sheared 1) junk56 /\ yield_pos mixed (sheared 1) /\
  cell_mat mixed 0 0 0 soft /\ cell_mat mixed 1 0 0 one /\ m_plast soft = Some false /\ m_plast one = Some true.
Proof. split; [exact mixed_body|]. split; [exact mixed_adm|]. split; [exact (mixed_vars 1)|]. split; [exact (mixed_yield 1)|exact mixed_kinds]. Qed.
Lemma state_affine V e u vold b n s : state3 V e u vold b n s -> affine_bnd3 V e u.
Proof. now intros (?&?&?&?&?&_&_&_&H&_). Qed.
Lemma mixed_energy_ex : exists mt u b s eps w eta b2 s2, body3 mixed /\ adm mixed /\ yield_ok mixed (sheared 1) /\ vars_ok mixed (sheared 1) junk56 /\
  (forall ex ey ez, is_cell3 mixed ex ey ez -> cell_mat mixed ex ey ez (mt ex ey ez)) /\
  state3 mixed (shear 3) u (sheared 1) b 0 s /\ strain_field3 mixed u eps /\
  full w (ndofs mixed) /\ affine_bnd3 mixed (shear 1) w /\ strain_field3 mixed w eta /\ state3 mixed (shear 1) w (sheared 1) b2 0 s2.
Proof.
  destruct (mixed_state (shear 3) 1) as (u & b & s & St). destruct (mixed_state (shear 1) 1) as (w & b2 & s2 & St2).
  assert (Fu : full u (ndofs mixed)) by (destruct St as (?&?&?&?&?&F&_); exact F). assert (Fw : full w (ndofs mixed)) by (destruct St2 as (?&?&?&?&?&F&_); exact F).
  exists (the_mat mixed), u, b, s, (fun ex ey ez g v => str3 mixed (val u) (ex, ey, ez) g v), w, (fun ex ey ez g v => str3 mixed (val w) (ex, ey, ez) g v), b2, s2.
  split; [exact mixed_body|]. split; [exact mixed_adm|]. split; [exact (yield_weaken _ _ (mixed_yield 1))|]. split; [exact (mixed_vars 1)|].
  split; [intros; now apply the_mat_ok; [exact mixed_body|]|]. split; [exact St|].
  split; [apply strain_field3_iff; [exact Fu|reflexivity|reflexivity]|]. split; [exact Fw|]. split; [exact (state_affine _ _ _ _ _ _ _ St2)|]. split; [apply strain_field3_iff; [exact Fw|reflexivity|reflexivity]|exact St2].
Qed.
Lemma mixed_lip_ex : exists u1 b1 s1 u2 b2 s2 M, body3 mixed /\ adm mixed /\ yield_ok mixed (sheared 1) /\
  state3 mixed (shear 3) u1 (sheared 1) b1 0 s1 /\ state3 mixed (shear 1) u2 (sheared 1) b2 0 s2 /\
  forall ex ey ez m, is_cell3 mixed ex ey ez -> cell_mat mixed ex ey ez m -> 2 * m_mu m <= M /\ 3 * (m_lambda m + 2 * m_mu m / 3) <= M.
Proof.
  destruct (mixed_state (shear 3) 1) as (u & b & s & St). destruct (mixed_state (shear 1) 1) as (w & b2 & s2 & St2). destruct (modulus_bound mixed mixed_body) as (M & _ & HM).
  exists u, b, s, w, b2, s2, M. split; [exact mixed_body|]. split; [exact mixed_adm|]. split; [exact (yield_weaken _ _ (mixed_yield 1))|]. auto.
Qed.
