(** What an object in doubles answers, against the effective stiffness of its exact body. *)
From Coq Require Import Reals Lra ZifyBool ZifyNat.
From Flocq Require Import BinarySingleNaN.
From Verif Require Import Base Scalar MonoBody ConvexMin EllSpec EllInit EllAsm EllFinal Grid CgPure CgProps AssemblyModel AsmPure AsmBnd AsmRun AsmSpec AsmProps AsmEquil FemGen FemAve FemRhs FemEquil AsmMat FemPd
  MicroModel NewtonBase NanRun NewtonReal KornProps EffBound BinInst FloatSum FloatCg FloatFem FloatBody FloatMat FloatNewton FloatBnd FloatShadow.
Open Scope Z_scope.
Open Scope R_scope.
Notation val := (@B2R 53 1024).

(** ** A bound of a field by itself *)
Lemma field_max (f : Z -> R) : forall n : nat, exists U0, 0 <= U0 /\ (forall a, (0 <= a < Z.of_nat n)%Z -> Rabs (f a) <= U0) /\ (U0 = 0 \/ exists a, (0 <= a < Z.of_nat n)%Z /\ U0 = Rabs (f a)).
Proof.
  induction n as [|n (U0 & P & B & A)]; [exists 0; split; [lra|]; split; [intros; lia|now left]|].
  destruct (Rle_dec (Rabs (f (Z.of_nat n))) U0) as [Q|Q].
  - exists U0. split; [exact P|]. split.
    + intros a Ha. destruct (Z.eq_dec a (Z.of_nat n)) as [-> |Ne]; [exact Q|apply B; lia].
    + destruct A as [-> |(a & Ha & ->)]; [now left|right; exists a; split; [lia|reflexivity]].
  - exists (Rabs (f (Z.of_nat n))). split; [apply Rabs_pos|]. split.
    + intros a Ha. destruct (Z.eq_dec a (Z.of_nat n)) as [-> |Ne]; [apply Rle_refl|]. apply Rle_trans with U0; [apply B; lia|lra].
    + right. exists (Z.of_nat n). split; [lia|reflexivity].
Qed.
Lemma self_bound N (f : Z -> R) c0 X q : 0 <= c0 -> c0 <= X -> 0 <= q <= / 2 ->
  (forall U, c0 <= U -> (forall a, (0 <= a < N)%Z -> Rabs (f a) <= U) -> forall a, (0 <= a < N)%Z -> Rabs (f a) <= X + q * U) ->
  forall a, (0 <= a < N)%Z -> Rabs (f a) <= 2 * X.
Proof.
  intros P0 H0 Hq Step. destruct (Z_le_gt_dec N 0) as [Z0|Z0]; [intros; lia|].
  destruct (field_max f (Z.to_nat N)) as (U0 & P & B & A). rewrite Z2Nat.id in * by lia.
  pose proof (Rmax_l c0 U0) as M1. pose proof (Rmax_r c0 U0) as M2. set (U := Rmax c0 U0) in *.
  assert (S1 : forall a, (0 <= a < N)%Z -> Rabs (f a) <= X + q * U). { apply Step; [exact M1|]. intros a Ha. specialize (B a Ha). lra. }
  assert (PU : 0 <= q * U) by (apply Rmult_le_pos; lra).
  assert (HU : U <= X + q * U).
  { unfold U at 1. apply Rmax_lub; [lra|]. destruct A as [-> |(a & Ha & ->)]; [lra|now apply S1]. }
  assert (Q : q * U <= / 2 * U) by (apply Rmult_le_compat_r; lra). intros a Ha. specialize (S1 a Ha). lra.
Qed.
Lemma pos3 a b c : 0 < a -> 0 < b -> 0 < c -> 0 < a * b * c.
Proof. intros. apply Rmult_lt_0_compat; [apply Rmult_lt_0_compat|]; assumption. Qed.
Lemma nn3 a b c : 0 <= a -> 0 <= b -> 0 <= c -> 0 <= a * b * c.
Proof. intros. apply Rmult_le_pos; [apply Rmult_le_pos|]; assumption. Qed.
Lemma maj3 cx cy cz dx dy dz M H U : 0 < cx -> 0 < cy -> 0 < dx -> 0 < dy -> cx * cy * cz * (8 * (96 * (M * (H * U)) * (1 / 8 * dx * dy * dz))) / (cx * dx * (cy * dy)) = 96 * (M * H) * (cz * dz) * U.
Proof. intros. field. repeat split; apply Rgt_not_eq; assumption. Qed.
Lemma maj2 cx cy dx dy M H U : 0 < cx -> 0 < cy -> 0 < dx -> 0 < dy -> cx * cy * (4 * (96 * (M * (H * U)) * (1 / 4 * dx * dy))) / (cx * dx * (cy * dy)) = 96 * (M * H) * 1 * U.
Proof. intros. field. repeat split; apply Rgt_not_eq; assumption. Qed.
Lemma grid_pos (V : env R) : sane V -> 0 < IZR (v_nx V - 1) /\ 0 < IZR (v_ny V - 1).
Proof. intros S. pose proof (sa_nx V S). pose proof (sa_ny V S). split; apply (IZR_lt 0); lia. Qed.
Lemma cells_len3 (V : env flt) (W : env R) : v_nx W = v_nx V -> v_ny W = v_ny V -> v_nz W = v_nz V -> sane W -> v_dim W = 3%Z ->
  INR (length (els3 V)) = IZR ((v_nx W - 1) * (v_ny W - 1) * (v_nz W - 1)).
Proof.
  intros X Y Z S D. replace (els3 V) with (els3 W) by (unfold els3; now rewrite X, Y, Z). rewrite <- (Rmult_1_r (INR _)), <- (rsum_const (els3 W) 1), (cells_const3 W 1 S D), !mult_IZR. ring.
Qed.
Lemma cells_len2 (V : env flt) (W : env R) : v_nx W = v_nx V -> v_ny W = v_ny V -> sane W ->
  INR (length (els2 V)) = IZR ((v_nx W - 1) * (v_ny W - 1)).
Proof.
  intros X Y S. replace (els2 V) with (els2 W) by (unfold els2; now rewrite X, Y). rewrite <- (Rmult_1_r (INR _)), <- (rsum_const (els2 W) 1), (cells_const2 W 1 S), !mult_IZR. ring.
Qed.

Section Three.
Variables (V : env flt) (H M L em m : R) (eps : list flt).
Hypothesis F : fair V H M.
Hypothesis D : v_dim V = 3%Z.
Hypothesis Lx : val (v_lx V) <= L.
Hypothesis Ly : val (v_ly V) <= L.
Hypothesis Lz : val (v_lz V) <= L.
Hypothesis Em : p2 (-40) <= em.
Hypothesis He : forall v, (0 <= v < 6)%Z -> Rabs (val (lget eps v)) <= em.
Hypothesis Hm : 0 < m.
Hypothesis HM : 0 <= M.
Local Notation W := (exact_env V).
Hypothesis Hs : stiff3 W m M.
Local Notation N := (ndofs V).
Local Notation cells := (IZR ((v_nx W - 1) * (v_ny W - 1) * (v_nz W - 1))).
(** rounding of a residual, per unit of displacement and relative to the stiffness *)
Definition theta3 (V : env flt) (H M m : R) : R := 46080 * (val (v_lx V) * val (v_lx V)) * (H * H) * (M / m) * (sqrt (INR (Z.to_nat (ndofs V))) * gam 165).
(** a bound of every computed displacement, nb bounding the residual norm *)
Definition size3 (V : env flt) (M L em m nb : R) : R := let W := exact_env V in
  2 * (2 * (em * L) + v_lx W * em * sqrt (45 * (IZR ((v_nx W - 1) * (v_ny W - 1) * (v_nz W - 1)) * M) / m) + 10 * (v_lx W * v_lx W) / (m * (v_dx W * v_dy W * v_dz W)) * nb).
(** the distance of the stresses from the effective ones *)
Definition spread (n : Z) (c : R) (k : nat) (ly lz M H nb U : R) (q vol : R) : R :=
  (nb + q * (sqrt (INR (Z.to_nat n)) * gam 165) * (H * H) * M * vol * U) * c + ly * (gam k * (96 * (M * H) * lz * U)).
Hypothesis G : gam (S (Z.to_nat N)) <= / 2.
Hypothesis Th : theta3 V H M m + gam 12 <= / 2.
Lemma body_W : body3 W /\ linear W /\ adm W.
Proof.
  pose proof (fr_sane _ _ _ F) as S. split; [split; [exact (exact_sane V S)|split; [exact (exact_geom V H M F)|exact D]]|]. split; [exact (exact_linear V S (fr_lin _ _ _ F D))|exact (exact_adm V H M F)].
Qed.
Lemma em0 : 0 <= em.
Proof. left. exact (em_pos em Em). Qed.
Section Run.
Variables (fuel : nat) (pk : peek) (w w' : work flt) (nl : bool) (it : Z) (er : flt) (s : list flt).
Hypothesis K : wok V w.
Hypothesis E : respond fuel pk V eps w = Ok (w', nl, it, er, s).
Hypothesis T : oltb er nr_tol = true.
Hypothesis Fs : all_fin V (w_u w').
Local Notation nb := (norm_bound N er).
Lemma vals_em v : (0 <= v < 6)%Z -> Rabs (lget (map val eps) v) <= em.
Proof. intros Hv. rewrite lget_vals. now apply He. Qed.
Theorem size_bound3 a : (0 <= a < N)%Z -> Rabs (val (oval (w_u w') a)) <= size3 V M L em m nb.
Proof.
  destruct body_W as (BW & LW & AW). pose proof BW as (SW & GW & DW). destruct (geom_pos W SW GW) as (Px & Py).
  pose proof (ge_px W GW) as Pdx. pose proof (ge_py W GW) as Pdy. pose proof (ge_pz W GW DW) as Pdz.
  assert (Pv : 0 < v_dx W * v_dy W * v_dz W) by now apply pos3. set (vol := v_dx W * v_dy W * v_dz W) in *.
  pose proof (L_pos V H M L F Lx) as PL. pose proof em0 as Pe. assert (P0 : 0 <= 2 * (em * L)) by (assert (0 <= em * L) by (apply Rmult_le_pos; lra); lra).
  assert (Th0 : 0 <= theta3 V H M m).
  { unfold theta3. apply Rmult_le_pos; [|apply Rmult_le_pos; [apply sqrt_pos|apply gam_pos]]. apply Rmult_le_pos; [|apply Rmult_le_pos; [exact HM|left; now apply Rinv_0_lt_compat]].
    apply Rmult_le_pos; [|apply Rle_0_sqr]. pose proof (Rle_0_sqr (val (v_lx V))) as Q. unfold Rsqr in Q. lra. }
  pose proof (gam_pos 12) as G12. pose proof (sqrt_pos (45 * (cells * M) / m)) as PC.
  assert (PA : 0 <= v_lx W * em * sqrt (45 * (cells * M) / m)) by (apply nn3; lra).
  assert (Pk : 0 < 10 * (v_lx W * v_lx W) / (m * vol)) by (apply Rdiv_lt_0_compat; [assert (0 < v_lx W * v_lx W) by (now apply Rmult_lt_0_compat); lra|now apply Rmult_lt_0_compat]).
  set (kap := 10 * (v_lx W * v_lx W) / (m * vol)) in *.
  assert (P12 : forall U, 2 * (em * L) <= U -> (forall a, (0 <= a < N)%Z -> Rabs (val (oval (w_u w') a)) <= U) ->
     0 <= nb /\ forall a, (0 <= a < N)%Z -> Rabs (val (oval (w_u w') a)) <= (2 * (em * L) + v_lx W * em * sqrt (45 * (cells * M) / m) + kap * nb) + (theta3 V H M m + gam 12) * U).
  { intros U HU Bu.
    destruct (shadow3 V H M L em U eps F Lx Ly (fun _ => Lz) Em He HU fuel pk w w' nl it er s D K E T G Fs Bu) as (v & vo & b & n & t & St & Pn & Cv & Bn & _).
    split; [exact Pn|]. intros a' Ha. destruct (exact_all3 W BW LW AW (map val eps)) as (z & vo2 & b2 & s2 & St2).
    pose proof (exact_size3 W m M BW LW Hm HM Hs _ _ _ _ _ em L a' St2 Pe vals_em Lx Ly Lz Ha) as Z1.
    pose proof (displacement_error3 W _ _ _ _ _ _ _ _ _ _ _ m M BW LW (Rlt_le _ _ Hm) Hs St St2) as DE. fold vol in DE. rewrite Rplus_0_r in DE.
    pose proof (len_at N (fun r => AsmSpec.val v r - AsmSpec.val z r) a' Ha) as LA. cbv beta in LA.
    assert (Q1 : Rabs (AsmSpec.val v a' - AsmSpec.val z a') <= kap * n).
    { apply Rle_trans with (len N (fun r => AsmSpec.val v r - AsmSpec.val z r)); [exact LA|]. apply Rmult_le_reg_l with (m * vol); [now apply Rmult_lt_0_compat|].
      unfold kap. replace (m * vol * (10 * (v_lx W * v_lx W) / (m * vol) * n)) with (10 * (v_lx W * v_lx W) * n) by (field; split; apply Rgt_not_eq; assumption). exact DE. }
    assert (Q2 : kap * n <= kap * nb + theta3 V H M m * U).
    { eapply Rle_trans; [apply Rmult_le_compat_l; [left; exact Pk|exact Bn]|]. rewrite Rmult_plus_distr_l. apply Rplus_le_compat_l. apply Req_le. rewrite wg3_R. unfold kap, theta3, vol.
      change (val (v_lx V)) with (v_lx W). field. repeat split; apply Rgt_not_eq; assumption. }
    pose proof (Cv a' Ha) as Q3. change (oval v a') with (AsmSpec.val v a') in Q3.
    replace (val (oval (w_u w') a')) with ((val (oval (w_u w') a') - AsmSpec.val v a') + (AsmSpec.val v a' - AsmSpec.val z a') + AsmSpec.val z a') by ring.
    eapply Rle_trans; [apply Rabs_triang|]. eapply Rle_trans; [apply Rplus_le_compat_r, Rabs_triang|]. lra. }
  assert (Pn : 0 <= nb).
  { destruct (field_max (fun a => val (oval (w_u w') a)) (Z.to_nat N)) as (U0 & PU & B & _).
    refine (proj1 (P12 (Rmax (2 * (em * L)) U0) (Rmax_l _ _) _)). intros a' Ha. eapply Rle_trans; [apply B; lia|apply Rmax_r]. }
  assert (Pkn : 0 <= kap * nb) by (apply Rmult_le_pos; lra).
  unfold size3. fold vol. fold kap. apply (self_bound N (fun a => val (oval (w_u w') a)) (2 * (em * L)) _ (theta3 V H M m + gam 12)); [exact P0|lra|split; [lra|exact Th]|].
  intros U HU Bu. exact (proj2 (P12 U HU Bu)).
Qed.
Theorem answer3 (Kf : Z -> Z -> R) :
  (forall e u vo b n s, state3 W e u vo b n s -> forall v, (0 <= v < 6)%Z -> v_ly W * Rabs (lget s v - dot 6 (Kf v) (lget e)) <= n * sqrt (10 * (cells * M) / m)) ->
  forall i, (0 <= i < 6)%Z -> fin (lget s i) ->
  v_ly W * Rabs (val (lget s i) - dot 6 (Kf i) (fun v => val (lget eps v))) <=
    spread N (sqrt (10 * (cells * M) / m)) (103 + length (els3 V)) (v_ly W) (v_lz W) M H nb (size3 V M L em m nb) 4608 (v_dx W * v_dy W * v_dz W).
Proof.
  intros HK i Hi Fi. destruct body_W as (BW & LW & AW). pose proof BW as (SW & GW & DW). destruct (geom_pos W SW GW) as (Px & Py).
  pose proof (ge_px W GW) as Pdx. pose proof (ge_py W GW) as Pdy. pose proof (ge_pz W GW DW) as Pdz.
  set (U := size3 V M L em m nb). assert (HU0 : 2 * (em * L) <= U /\ 0 <= nb).
  { pose proof em0 as Pe. pose proof (L_pos V H M L F Lx) as PL. assert (P0 : 0 <= em * L) by (apply Rmult_le_pos; lra).
    destruct (field_max (fun a => val (oval (w_u w') a)) (Z.to_nat N)) as (U0 & PU & B & _).
    destruct (shadow3 V H M L em (Rmax (2 * (em * L)) U0) eps F Lx Ly (fun _ => Lz) Em He (Rmax_l _ _) fuel pk w w' nl it er s D K E T G Fs) as (_ & _ & _ & _ & _ & _ & Pn & _).
    { intros a' Ha. eapply Rle_trans; [apply B; lia|apply Rmax_r]. }
    split; [|exact Pn]. unfold U, size3. assert (P1 : 0 <= v_lx W * em * sqrt (45 * (cells * M) / m)) by (apply nn3; try lra; apply sqrt_pos).
    assert (P2 : 0 <= 10 * (v_lx W * v_lx W) / (m * (v_dx W * v_dy W * v_dz W)) * nb).
    { apply Rmult_le_pos; [|exact Pn]. left. apply Rdiv_lt_0_compat; [assert (0 < v_lx W * v_lx W) by (now apply Rmult_lt_0_compat); lra|apply Rmult_lt_0_compat; [exact Hm|now apply pos3]]. }
    cbv zeta. lra. }
  destruct HU0 as (HU & Pn).
  destruct (shadow3 V H M L em U eps F Lx Ly (fun _ => Lz) Em He HU fuel pk w w' nl it er s D K E T G Fs size_bound3) as (v & vo & b & n & t & St & _ & _ & Bn & Bs).
  specialize (Bs i Hi Fi). pose proof (HK _ _ _ _ _ _ St i Hi) as HKi.
  replace (dot 6 (Kf i) (lget (map val eps))) with (dot 6 (Kf i) (fun v => val (lget eps v))) in HKi by (unfold dot; apply rsum_ext; intros; now rewrite lget_vals).
  set (kd := dot 6 (Kf i) (fun v => val (lget eps v))) in *. unfold spread.
  replace (val (lget s i) - kd) with ((lget t i - kd) + (val (lget s i) - lget t i)) by ring.
  eapply Rle_trans; [apply Rmult_le_compat_l; [lra|apply Rabs_triang]|]. rewrite Rmult_plus_distr_l. apply Rplus_le_compat.
  - eapply Rle_trans; [exact HKi|]. apply Rmult_le_compat_r; [apply sqrt_pos|]. eapply Rle_trans; [exact Bn|]. apply Rplus_le_compat_l, Req_le. rewrite wg3_R. field.
  - apply Rmult_le_compat_l; [lra|]. eapply Rle_trans; [exact Bs|]. apply Rmult_le_compat_l; [apply gam_pos|]. apply Req_le.
    rewrite (cells_len3 V W eq_refl eq_refl eq_refl SW DW), wg3_R. unfold area. rewrite (ge_z W GW DW). cbn [omul ROps]. rewrite (ge_x W GW), (ge_y W GW), !mult_IZR.
    destruct (grid_pos W SW) as (C1 & C2). now apply maj3.
Qed.
End Run.
End Three.

Section Two.
Variables (V : env flt) (H M L em m : R) (eps : list flt).
Hypothesis F : fair V H M.
Hypothesis D : v_dim V = 2%Z.
Hypothesis Lx : val (v_lx V) <= L.
Hypothesis Ly : val (v_ly V) <= L.
Hypothesis Em : p2 (-40) <= em.
Hypothesis He : forall v, (0 <= v < 6)%Z -> Rabs (val (lget eps v)) <= em.
Hypothesis Hm : 0 < m.
Hypothesis HM : 0 <= M.
Local Notation W := (exact_env V).
Lemma Lz0 : v_dim V = 3%Z -> val (v_lz V) <= L.
Proof. rewrite D. discriminate. Qed.
Hypothesis Hs : stiff2 W m M.
Local Notation N := (ndofs V).
Local Notation cells := (IZR ((v_nx W - 1) * (v_ny W - 1))).
(** rounding of a residual, per unit of displacement and relative to the stiffness *)
Definition theta2 (V : env flt) (H M m : R) : R := 4608 * (val (v_lx V) * val (v_lx V)) * (H * H) * (M / m) * (sqrt (INR (Z.to_nat (ndofs V))) * gam 165).
(** a bound of every computed displacement, nb bounding the residual norm *)
Definition size2 (V : env flt) (M L em m nb : R) : R := let W := exact_env V in
  2 * (2 * (em * L) + v_lx W * em * sqrt (10 * (IZR ((v_nx W - 1) * (v_ny W - 1)) * M) / m) + 4 * (v_lx W * v_lx W) / (m * (v_dx W * v_dy W)) * nb).
Hypothesis G : gam (S (Z.to_nat N)) <= / 2.
Hypothesis Th : theta2 V H M m + gam 12 <= / 2.
Lemma body_W2 : body2 W /\ adm W.
Proof.
  pose proof (fr_sane _ _ _ F) as S. split; [split; [exact (exact_sane V S)|split; [exact (exact_geom V H M F)|exact D]]|]. exact (exact_adm V H M F).
Qed.
Lemma em02 : 0 <= em.
Proof. left. exact (em_pos em Em). Qed.
Lemma six v : (0 <= v < 3)%Z -> (0 <= v < 6)%Z.
Proof. lia. Qed.
Section Run.
Variables (fuel : nat) (pk : peek) (w w' : work flt) (nl : bool) (it : Z) (er : flt) (s : list flt).
Hypothesis K : wok V w.
Hypothesis E : respond fuel pk V eps w = Ok (w', nl, it, er, s).
Hypothesis T : oltb er nr_tol = true.
Hypothesis Fs : all_fin V (w_u w').
Local Notation nb := (norm_bound N er).
Lemma vals_em2 v : (0 <= v < 6)%Z -> Rabs (lget (map val eps) v) <= em.
Proof. intros Hv. rewrite lget_vals. now apply He. Qed.
Theorem size_bound2 a : (0 <= a < N)%Z -> Rabs (val (oval (w_u w') a)) <= size2 V M L em m nb.
Proof.
  destruct body_W2 as (BW & AW). pose proof BW as (SW & GW & DW). destruct (geom_pos W SW GW) as (Px & Py).
  pose proof (ge_px W GW) as Pdx. pose proof (ge_py W GW) as Pdy. 
  assert (Pv : 0 < v_dx W * v_dy W) by now apply Rmult_lt_0_compat. set (vol := v_dx W * v_dy W) in *.
  pose proof (L_pos V H M L F Lx) as PL. pose proof em02 as Pe. assert (P0 : 0 <= 2 * (em * L)) by (assert (0 <= em * L) by (apply Rmult_le_pos; lra); lra).
  assert (Th0 : 0 <= theta2 V H M m).
  { unfold theta2. apply Rmult_le_pos; [|apply Rmult_le_pos; [apply sqrt_pos|apply gam_pos]]. apply Rmult_le_pos; [|apply Rmult_le_pos; [exact HM|left; now apply Rinv_0_lt_compat]].
    apply Rmult_le_pos; [|apply Rle_0_sqr]. pose proof (Rle_0_sqr (val (v_lx V))) as Q. unfold Rsqr in Q. lra. }
  pose proof (gam_pos 12) as G12. pose proof (sqrt_pos (10 * (cells * M) / m)) as PC.
  assert (PA : 0 <= v_lx W * em * sqrt (10 * (cells * M) / m)) by (apply nn3; lra).
  assert (Pk : 0 < 4 * (v_lx W * v_lx W) / (m * vol)) by (apply Rdiv_lt_0_compat; [assert (0 < v_lx W * v_lx W) by (now apply Rmult_lt_0_compat); lra|now apply Rmult_lt_0_compat]).
  set (kap := 4 * (v_lx W * v_lx W) / (m * vol)) in *.
  assert (P12 : forall U, 2 * (em * L) <= U -> (forall a, (0 <= a < N)%Z -> Rabs (val (oval (w_u w') a)) <= U) ->
     0 <= nb /\ forall a, (0 <= a < N)%Z -> Rabs (val (oval (w_u w') a)) <= (2 * (em * L) + v_lx W * em * sqrt (10 * (cells * M) / m) + kap * nb) + (theta2 V H M m + gam 12) * U).
  { intros U HU Bu.
    destruct (shadow2 V H M L em U eps F Lx Ly Lz0 Em He HU fuel pk w w' nl it er s D K E T G Fs Bu) as (v & b & n & t & St & Pn & Cv & Bn & _).
    split; [exact Pn|]. intros a' Ha. destruct (exact_all2 W BW AW (map val eps)) as (z & b2 & s2 & St2).
    pose proof (exact_size2 W m M BW AW Hm HM Hs _ _ _ _ em L a' St2 Pe (fun v Hv => vals_em2 v (six v Hv)) Lx Ly Ha) as Z1.
    pose proof (displacement_error2 W _ _ _ _ _ _ _ _ _ m M BW AW (Rlt_le _ _ Hm) Hs St St2) as DE. fold vol in DE. rewrite Rplus_0_r in DE.
    pose proof (len_at N (fun r => AsmSpec.val v r - AsmSpec.val z r) a' Ha) as LA. cbv beta in LA.
    assert (Q1 : Rabs (AsmSpec.val v a' - AsmSpec.val z a') <= kap * n).
    { apply Rle_trans with (len N (fun r => AsmSpec.val v r - AsmSpec.val z r)); [exact LA|]. apply Rmult_le_reg_l with (m * vol); [now apply Rmult_lt_0_compat|].
      unfold kap. replace (m * vol * (4 * (v_lx W * v_lx W) / (m * vol) * n)) with (4 * (v_lx W * v_lx W) * n) by (field; split; apply Rgt_not_eq; assumption). exact DE. }
    assert (Q2 : kap * n <= kap * nb + theta2 V H M m * U).
    { eapply Rle_trans; [apply Rmult_le_compat_l; [left; exact Pk|exact Bn]|]. rewrite Rmult_plus_distr_l. apply Rplus_le_compat_l. apply Req_le. rewrite wg2_R. unfold kap, theta2, vol.
      change (val (v_lx V)) with (v_lx W). field. repeat split; apply Rgt_not_eq; assumption. }
    pose proof (Cv a' Ha) as Q3. change (oval v a') with (AsmSpec.val v a') in Q3.
    replace (val (oval (w_u w') a')) with ((val (oval (w_u w') a') - AsmSpec.val v a') + (AsmSpec.val v a' - AsmSpec.val z a') + AsmSpec.val z a') by ring.
    eapply Rle_trans; [apply Rabs_triang|]. eapply Rle_trans; [apply Rplus_le_compat_r, Rabs_triang|]. lra. }
  assert (Pn : 0 <= nb).
  { destruct (field_max (fun a => val (oval (w_u w') a)) (Z.to_nat N)) as (U0 & PU & B & _).
    refine (proj1 (P12 (Rmax (2 * (em * L)) U0) (Rmax_l _ _) _)). intros a' Ha. eapply Rle_trans; [apply B; lia|apply Rmax_r]. }
  assert (Pkn : 0 <= kap * nb) by (apply Rmult_le_pos; lra).
  unfold size2. fold vol. fold kap. apply (self_bound N (fun a => val (oval (w_u w') a)) (2 * (em * L)) _ (theta2 V H M m + gam 12)); [exact P0|lra|split; [lra|exact Th]|].
  intros U HU Bu. exact (proj2 (P12 U HU Bu)).
Qed.
Theorem answer2 (Kf : Z -> Z -> R) :
  (forall e u b n s, state2 W e u b n s -> forall v, (0 <= v < 3)%Z -> v_ly W * Rabs (lget s v - dot 3 (Kf v) (lget e)) <= n * sqrt (4 * (cells * M) / m)) ->
  forall i, (0 <= i < 3)%Z -> fin (lget s i) ->
  v_ly W * Rabs (val (lget s i) - dot 3 (Kf i) (fun v => val (lget eps v))) <=
    spread N (sqrt (4 * (cells * M) / m)) (103 + length (els2 V)) (v_ly W) 1 M H nb (size2 V M L em m nb) 1152 (v_dx W * v_dy W).
Proof.
  intros HK i Hi Fi. destruct body_W2 as (BW & AW). pose proof BW as (SW & GW & DW). destruct (geom_pos W SW GW) as (Px & Py).
  pose proof (ge_px W GW) as Pdx. pose proof (ge_py W GW) as Pdy. 
  set (U := size2 V M L em m nb). assert (HU0 : 2 * (em * L) <= U /\ 0 <= nb).
  { pose proof em02 as Pe. pose proof (L_pos V H M L F Lx) as PL. assert (P0 : 0 <= em * L) by (apply Rmult_le_pos; lra).
    destruct (field_max (fun a => val (oval (w_u w') a)) (Z.to_nat N)) as (U0 & PU & B & _).
    destruct (shadow2 V H M L em (Rmax (2 * (em * L)) U0) eps F Lx Ly Lz0 Em He (Rmax_l _ _) fuel pk w w' nl it er s D K E T G Fs) as (_ & _ & _ & _ & _ & Pn & _).
    { intros a' Ha. eapply Rle_trans; [apply B; lia|apply Rmax_r]. }
    split; [|exact Pn]. unfold U, size2. assert (P1 : 0 <= v_lx W * em * sqrt (10 * (cells * M) / m)) by (apply nn3; try lra; apply sqrt_pos).
    assert (P2 : 0 <= 4 * (v_lx W * v_lx W) / (m * (v_dx W * v_dy W)) * nb).
    { apply Rmult_le_pos; [|exact Pn]. left. apply Rdiv_lt_0_compat; [assert (0 < v_lx W * v_lx W) by (now apply Rmult_lt_0_compat); lra|apply Rmult_lt_0_compat; [exact Hm|now apply Rmult_lt_0_compat]]. }
    cbv zeta. lra. }
  destruct HU0 as (HU & Pn).
  destruct (shadow2 V H M L em U eps F Lx Ly Lz0 Em He HU fuel pk w w' nl it er s D K E T G Fs size_bound2) as (v & b & n & t & St & _ & _ & Bn & Bs).
  specialize (Bs i Hi Fi). pose proof (HK _ _ _ _ _ St i Hi) as HKi.
  replace (dot 3 (Kf i) (lget (map val eps))) with (dot 3 (Kf i) (fun v => val (lget eps v))) in HKi by (unfold dot; apply rsum_ext; intros; now rewrite lget_vals).
  set (kd := dot 3 (Kf i) (fun v => val (lget eps v))) in *. unfold spread.
  replace (val (lget s i) - kd) with ((lget t i - kd) + (val (lget s i) - lget t i)) by ring.
  eapply Rle_trans; [apply Rmult_le_compat_l; [lra|apply Rabs_triang]|]. rewrite Rmult_plus_distr_l. apply Rplus_le_compat.
  - eapply Rle_trans; [exact HKi|]. apply Rmult_le_compat_r; [apply sqrt_pos|]. eapply Rle_trans; [exact Bn|]. apply Rplus_le_compat_l, Req_le. rewrite wg2_R. field.
  - apply Rmult_le_compat_l; [lra|]. eapply Rle_trans; [exact Bs|]. apply Rmult_le_compat_l; [apply gam_pos|]. apply Req_le.
    rewrite (cells_len2 V W eq_refl eq_refl SW), wg2_R. unfold area. cbn [omul ROps]. rewrite (ge_x W GW), (ge_y W GW), !mult_IZR.
    destruct (grid_pos W SW) as (C1 & C2). now apply maj2.
Qed.
End Run.
End Two.
