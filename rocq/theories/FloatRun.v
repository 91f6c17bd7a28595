(** The code run in doubles against the same code run in real numbers. *)
From Coq Require Import Reals Lra ZifyBool ZifyNat.
From Flocq Require Import BinarySingleNaN.
From Verif Require Import Base Scalar MonoBody ConvexMin EllSpec EllInit EllAsm EllFinal Grid CgPure CgProps AssemblyModel AsmPure AsmBnd AsmRun AsmSpec AsmProps AsmEquil AsmPoint FemGen FemAve FemRhs FemEquil AsmMat FemPd
  MicroModel OutputModel NewtonBase ApiBase ApiRun ApiHist Build ApiExact ApiSpec ApiProps Tangent KornProps EffBound BinInst FloatSum FloatCg FloatFem FloatBody FloatMat FloatNewton FloatBnd FloatShadow FloatAnswer FloatFin FloatSize FloatObj.
Open Scope Z_scope.
Open Scope R_scope.
Notation val := (@B2R 53 1024).

(** objects from fair arguments are fair *)
Theorem fair_object fuel0 q0 (j : junk flt) dim nx ny nz mtype mp mt ps o H L M : valid_args dim nx ny nz mtype mp mt ps -> total_junk j ->
  construct fuel0 q0 j dim [nx; ny; nz] mtype mp mt ps = Ok o -> fair_args dim nx ny nz mp ps H L M -> (dim = 3%Z -> no_plastic mt) ->
  (forall i, (i = 0 \/ i = 10)%Z -> val (lget ps i) / (1 + val (lget ps (i + 1))) <= M /\ val (lget ps i) / ((1 + val (lget ps (i + 1))) * (1 - 2 * val (lget ps (i + 1)))) <= M) ->
  fair (o_env o) H M /\ v_dim (o_env o) = dim.
Proof.
  intros A J C FA NP Mo. pose proof (construct_ok fuel0 q0 j dim nx ny nz mtype mp mt ps A J) as Q. rewrite C in Q. destruct Q as ((Ko & _) & (tol & _ & EV) & _). pose proof (ok_sane o Ko) as Sv.
  split; [exact (fair_of dim nx ny nz mtype mp mt ps tol (o_env o) H L M EV Sv FA NP Mo)|exact (eo_dim _ _ _ _ _ _ _ _ _ _ EV)].
Qed.

(** the doubles of u are near the reals of r, at most U *)
Definition near_field (V : env flt) (u : arr flt) (r : arr R) (U : R) : Prop := EllFinal.full u (ndofs V) /\ EllFinal.full r (ndofs V) /\
  forall a x y, (0 <= a < ndofs V)%Z -> aget u a = Some x -> aget r a = Some y -> fin x /\ Rabs y <= U /\ Rabs (val x - y) <= gam 12 * U.
Lemma near_cn V u r U : near_field V u r U -> forall a, (0 <= a < ndofs V)%Z -> cn 12 (oval u a) (oval r a) U.
Proof.
  intros ((_ & Fu) & (_ & Fr) & N) a Ha. destruct (Fu a Ha) as (x & Ex). destruct (Fr a Ha) as (y & Ey). unfold oval. rewrite Ex, Ey. destruct (N a x y Ha Ex Ey) as (_ & B & C). split; [exact B|]. intros _. exact C.
Qed.
Lemma near_bd V u r U : U <= p2 299 -> near_field V u r U -> forall a, (0 <= a < ndofs V)%Z -> bd 300 (oval u a).
Proof.
  intros HU ((_ & Fu) & (_ & Fr) & N) a Ha. destruct (Fu a Ha) as (x & Ex). destruct (Fr a Ha) as (y & Ey). unfold oval. rewrite Ex. destruct (N a x y Ha Ex Ey) as (Fx & B & C). split; [exact Fx|].
  pose proof (gam_half 12 ltac:(lia)) as G. pose proof (Rabs_pos y) as Py. change 300%Z with (299 + 1)%Z. rewrite p2_S. replace (val x) with (val x - y + y) by ring. eapply Rle_trans; [apply Rabs_triang|].
  assert (gam 12 * U <= / 2 * U) by (apply Rmult_le_compat_r; lra). lra.
Qed.
Lemma pull3 M H U dx dy dz : 8 * (8 * (6 * (H * (96 * (M * (H * U))) * (1 / 8 * dx * dy * dz)))) = 4608 * (H * H) * M * (dx * dy * dz) * U.
Proof. field. Qed.
Lemma pull2 M H U dx dy : 4 * (4 * (3 * (H * (96 * (M * (H * U))) * (1 / 4 * dx * dy)))) = 1152 * (H * H) * M * (dx * dy) * U.
Proof. field. Qed.
Lemma strain3_maj cx cy cz dx dy dz H U : 0 < cx -> 0 < cy -> 0 < dx -> 0 < dy -> cx * cy * cz * (8 * (24 * (H * U) * (1 / 8 * dx * dy * dz))) / (cx * dx * (cy * dy)) = 24 * H * (cz * dz) * U.
Proof. intros. field. repeat split; lra. Qed.
Lemma strain2_maj cx cy dx dy H U : 0 < cx -> 0 < cy -> 0 < dx -> 0 < dy -> cx * cy * (4 * (24 * (H * U) * (1 / 4 * dx * dy))) / (cx * dx * (cy * dy)) = 24 * H * 1 * U.
Proof. intros. field. repeat split; lra. Qed.
(** ** Residuals and averages of moderate fields are finite *)
Lemma deltas_in {T} (ws : list (Z * T)) j x : In x (deltas ws j) -> exists i, In (i, x) ws.
Proof. unfold deltas. intro Hx. apply in_map_iff in Hx. destruct Hx as ((i & y) & E & Q). cbn [snd] in E. subst y. apply filter_In in Q. exists i. apply Q. Qed.
Lemma fold_deltas_bd (l : list flt) c : (length l <= 8)%nat -> (c + 4 <= 1000)%Z -> (forall x, In x l -> bd c x) -> bd (c + 4) (fold_left oadd l (dec 0 1)).
Proof.
  intros Ln Lc Hl. destruct (small_count (length l) 3 ltac:(lia) ltac:(lia) ltac:(lia)) as (G & N). replace (c + 4)%Z with (c + 3 + 1)%Z by lia.
  assert (Z0 : dec 0 1 = (ofZ 0 : flt)) by (vm_compute; reflexivity). rewrite Z0.
  apply (ac_bd c (length l) 3); [|exact G|exact N]. exact (ac_fold c 3 (fun x => x) l 0 (ofZ 0) (ac_zero c) Hl G N ltac:(lia)).
Qed.
Section Forward.
Variables (V : env flt) (H M : R) (uf of : Z -> flt).
Hypothesis F : fair V H M.
Hypothesis Bu : forall a, (0 <= a < ndofs V)%Z -> bd 300 (uf a).
Lemma be3_bd e i : v_dim V = 3%Z -> In e (els3 V) -> (0 <= i < 24)%Z -> bd 805 (lget (be3 V uf of e) i).
Proof.
  intros D He Hi. unfold be3. destruct (small_count 48 6 ltac:(lia) ltac:(lia) ltac:(lia)) as (G & N).
  assert (Tm : forall g v i, (0 <= v < 6)%Z -> bd 798 (omul (omul (B3 V g v i) (lget (sig3 V of e g (strain3 V uf e g)) v)) (wg3 V))).
  { intros g v k Hv. exact (bd_mul _ _ _ _ (bd_mul _ _ _ _ (B3_bd V g v k (dx_cell V H M F) (dy_cell V H M F) (dz_cell V H M F D) Hv) (sig3_bd V H M uf of F Bu D e g v He Hv) ltac:(lia)) (wg3_bd V H M F D) ltac:(lia)). }
  pose proof (rhs_bd 6 24 (B3 V) (fun g => sig3 V of e g (strain3 V uf e g)) (wg3 V) 798 6 ltac:(lia) ltac:(lia) Tm (zrange 0 8) i Hi 0 (zeros 24) (ac_zeros 798 24 i Hi)) as Q.
  change (0 + length (zrange 0 8) * Z.to_nat 6)%nat with 48%nat in Q. exact (ac_bd _ _ 6 _ (Q G N) G N).
Qed.
Lemma be2_bd e i : v_dim V = 2%Z -> In e (els2 V) -> (0 <= i < 8)%Z -> bd 805 (lget (be2 V uf e) i).
Proof.
  intros D He Hi. unfold be2. destruct (small_count 12 6 ltac:(lia) ltac:(lia) ltac:(lia)) as (G & N).
  assert (Tm : forall g v i, (0 <= v < 3)%Z -> bd 798 (omul (omul (B2 V g v i) (lget (sig2 V e (strain2 V uf e g)) v)) (wg2 V))).
  { intros g v k Hv. exact (bd_mul _ _ _ _ (bd_mul _ _ _ _ (B2_bd V g v k (dx_cell V H M F) (dy_cell V H M F) Hv) (sig2_bd V H M uf of F Bu D e g v He Hv) ltac:(lia)) (wg2_bd V H M F) ltac:(lia)). }
  pose proof (rhs_bd 3 8 (B2 V) (fun g => sig2 V e (strain2 V uf e g)) (wg2 V) 798 6 ltac:(lia) ltac:(lia) Tm (zrange 0 4) i Hi 0 (zeros 8) (ac_zeros 798 8 i Hi)) as Q.
  change (0 + length (zrange 0 4) * Z.to_nat 3)%nat with 12%nat in Q. exact (ac_bd _ _ 6 _ (Q G N) G N).
Qed.
Lemma dec0_bd c : bd c (dec 0 1).
Proof. assert (Z0 : dec 0 1 = (ofZ 0 : flt)) by (vm_compute; reflexivity). rewrite Z0. apply bd_zero. Qed.
Lemma resid_fin3 a : v_dim V = 3%Z -> fin (resid V 3 (rhs_all3 V uf of) a).
Proof.
  intro D. unfold resid. destruct (bndb V (v_nz V) (a / 3)); [exact (proj1 (bd_opp _ _ (dec0_bd 0)))|]. refine (proj1 (bd_opp 809 _ _)). apply (fold_deltas_bd _ 805); [exact (corners_count3 V uf of a)|lia|].
  intros x Hx. apply deltas_in in Hx. destruct Hx as (k & Hx). unfold rhs_all3 in Hx. apply in_flat_map in Hx. destruct Hx as (((ex, ey), ez) & He & Hx). unfold rhs_adds in Hx. apply in_map_iff in Hx. destruct Hx as (i & E & Hi). injection E as _ <-.
  apply in_zrange in Hi. now apply be3_bd.
Qed.
Lemma resid_fin2 a : v_dim V = 2%Z -> fin (resid V 2 (rhs_all2 V uf) a).
Proof.
  intro D. unfold resid. destruct (bndb V (v_nz V) (a / 2)); [exact (proj1 (bd_opp _ _ (dec0_bd 0)))|]. refine (proj1 (bd_opp 809 _ _)). apply (fold_deltas_bd _ 805); [pose proof (corners_count2 V uf a); lia|lia|].
  intros x Hx. apply deltas_in in Hx. destruct Hx as (k & Hx). unfold rhs_all2 in Hx. apply in_flat_map in Hx. destruct Hx as ((ex, ey) & He & Hx). unfold rhs_adds in Hx. apply in_map_iff in Hx. destruct Hx as (i & E & Hi). injection E as _ <-.
  apply in_zrange in Hi. now apply be2_bd.
Qed.
Lemma avstrain_fin3 v : v_dim V = 3%Z -> (0 <= v < 6)%Z -> gam (length (els3 V)) <= / 2 -> fin (lget (ave3 V (eaux3 V uf)) v).
Proof.
  intros D Hv G. unfold ave3. rewrite lget_ltab by exact Hv. pose proof (gam_count _ G) as N.
  assert (Ea : forall e, In e (els3 V) -> bd 593 (lget (eaux3 V uf e) v)).
  { intros e He. unfold eaux3. destruct (small_count 8 3 ltac:(lia) ltac:(lia) ltac:(lia)) as (G8 & N8).
    assert (Es : forall g, bd 407 (lget (strain3 V uf e g) v)).
    { intro g. apply (strain_bd V uf of Bu); [exact Hv|lia| |]; [intro i; exact (B3_bd V g v i (dx_cell V H M F) (dy_cell V H M F) (dz_cell V H M F D) Hv)|intros i Hi; now apply (disp3_bd V uf of Bu D)]. }
    pose proof (ave_bd 6 (fun g => strain3 V uf e g) (wg3 V) 589 3 v Hv ltac:(lia) (fun g => bd_mul _ _ _ _ (Es g) (wg3_bd V H M F D) ltac:(lia)) (zrange 0 8) 0 _ (ac_zeros 589 6 v Hv)) as Q.
    change (0 + length (zrange 0 8))%nat with 8%nat in Q. exact (ac_bd _ _ 3 _ (Q G8 N8) G8 N8). }
  pose proof (vec_bd 6 (eaux3 V uf) 593 53 v Hv ltac:(lia) (els3 V) 0 _ Ea (ac_zeros 593 6 v Hv)) as Q. change (0 + length (els3 V))%nat with (length (els3 V)) in Q.
  exact (proj1 (area_bd V H M uf of F Bu _ _ (ac_bd _ _ 53 _ (Q G N) G N) ltac:(lia))).
Qed.
Lemma avstrain_fin2 v : v_dim V = 2%Z -> (0 <= v < 3)%Z -> gam (length (els2 V)) <= / 2 -> fin (lget (ave2 V (eaux2 V uf)) v).
Proof.
  intros D Hv G. unfold ave2. rewrite lget_ltab by exact Hv. pose proof (gam_count _ G) as N.
  assert (Ea : forall e, In e (els2 V) -> bd 593 (lget (eaux2 V uf e) v)).
  { intros e He. unfold eaux2. destruct (small_count 4 3 ltac:(lia) ltac:(lia) ltac:(lia)) as (G8 & N8).
    assert (Es : forall g, bd 407 (lget (strain2 V uf e g) v)).
    { intro g. apply (strain_bd V uf of Bu); [exact Hv|lia| |]; [intro i; exact (B2_bd V g v i (dx_cell V H M F) (dy_cell V H M F) Hv)|intros i Hi; now apply (disp2_bd V H M uf of F Bu D)]. }
    pose proof (ave_bd 3 (fun g => strain2 V uf e g) (wg2 V) 589 3 v Hv ltac:(lia) (fun g => bd_mul _ _ _ _ (Es g) (wg2_bd V H M F) ltac:(lia)) (zrange 0 4) 0 _ (ac_zeros 589 3 v Hv)) as Q.
    change (0 + length (zrange 0 4))%nat with 4%nat in Q. exact (ac_bd _ _ 3 _ (Q G8 N8) G8 N8). }
  pose proof (vec_bd 3 (eaux2 V uf) 593 53 v Hv ltac:(lia) (els2 V) 0 _ Ea (ac_zeros 593 3 v Hv)) as Q. change (0 + length (els2 V))%nat with (length (els2 V)) in Q.
  exact (proj1 (area_bd V H M uf of F Bu _ _ (ac_bd _ _ 53 _ (Q G N) G N) ltac:(lia))).
Qed.
End Forward.

Lemma no_old (W : env R) : linear W -> forall of vo, old_ok W of vo.
Proof. intros LW of vo e g i He _ _ P. rewrite (LW e He) in P. discriminate. Qed.
Section Body.
Variables (V : env flt) (H M U : R) (u : arr flt) (r : arr R).
Hypothesis F : fair V H M.
Hypothesis HU : p2 (-100) <= U <= p2 299.
Hypothesis G : gam (S (Z.to_nat (ndofs V))) <= / 2.
Hypothesis Nr : near_field V u r U.
Local Notation W := (exact_env V).
Theorem body_double3 : v_dim V = 3%Z -> let vol := v_dx W * v_dy W * v_dz W in
  (forall vo vn b b' nl vn' er, has_old V vo -> alen vn = nvars V -> alen b = ndofs V -> assembly_rhs V u vo vn b = Ok (b', nl, vn', er) ->
   forall vo2 vn2 b2, alen vn2 = nvars V -> alen b2 = ndofs V -> exists b3 nl3 vn3 n, assembly_rhs W r vo2 vn2 b2 = Ok (b3, nl3, vn3, n) /\
   forall a x, (0 <= a < ndofs V)%Z -> aget b' a = Some x -> fin x /\ exists y, aget b3 a = Some y /\ Rabs (val x - y) <= gam 165 * (4608 * (H * H) * M * vol * U)) /\
  (forall vo vn s vn', has_old V vo -> alen vn = nvars V -> calc_ave_stress V u vo vn = Ok (s, vn') ->
   forall vo2 vn2, alen vn2 = nvars V -> exists s2 vn3, calc_ave_stress W r vo2 vn2 = Ok (s2, vn3) /\
   forall v, (0 <= v < 6)%Z -> fin (lget s v) /\ Rabs (val (lget s v) - lget s2 v) <= gam (103 + Z.to_nat ((v_nx V - 1) * (v_ny V - 1) * (v_nz V - 1))) * (96 * (M * H) * v_lz W * U)) /\
  exists e e2, calc_ave_strain V u = Ok e /\ calc_ave_strain W r = Ok e2 /\
   forall v, (0 <= v < 6)%Z -> fin (lget e v) /\ Rabs (val (lget e v) - lget e2 v) <= gam (103 + Z.to_nat ((v_nx V - 1) * (v_ny V - 1) * (v_nz V - 1))) * (24 * H * v_lz W * U).
Proof.
  intros D vol. pose proof (fr_sane _ _ _ F) as S. pose proof (exact_sane V S) as SW. pose proof (fair_twin V H M F) as TW. destruct (body_W V H M F D) as (BW & LW & _). pose proof BW as (_ & GW & DW).
  pose proof (near_cn V u r U Nr) as Cn. pose proof Nr as (Fu & Fr & _). pose proof (full_oval _ _ Fu) as Ru. pose proof (full_oval _ _ Fr) as Rr. rewrite (ndofs_eq3 V D) in Ru. assert (Rr2 := Rr). rewrite (ndofs_eq3 V D) in Rr.
  assert (Near : forall a, (0 <= a < v_nx V * v_ny V * v_nz V * v_dim V)%Z -> cn 12 (oval u a) (oval r a) U) by exact Cn.
  assert (Some_cell : (1 <= length (els3 V))%nat).
  { destruct (els3 V) as [|e l] eqn:Q; [|cbn [length]; lia]. exfalso. assert (In (0, 0, 0)%Z (els3 V)) as I by (apply in_els3; pose proof (sa_nx V S); pose proof (sa_ny V S); pose proof (sane_nz V S D); lia). rewrite Q in I. exact I. }
  assert (Len : length (els3 V) = Z.to_nat ((v_nx V - 1) * (v_ny V - 1) * (v_nz V - 1))).
  { apply INR_eq. rewrite (cells_len3 V W eq_refl eq_refl eq_refl SW DW), INR_IZR_INZ. f_equal. cbn [exact_env v_nx v_ny v_nz]. pose proof (cells_dofs3 _ _ _ (sa_nx V S) (sa_ny V S) (sane_nz V S D)). lia. }
  assert (Gc : gam (length (els3 V)) <= / 2) by (eapply Rle_trans; [|exact G]; apply gam_le; rewrite Len, (ndofs_eq3 V D); pose proof (cells_dofs3 _ _ _ (sa_nx V S) (sa_ny V S) (sane_nz V S D)); lia).
  pose proof (near_bd V u r U (proj2 HU) Nr) as Bd.
  assert (Vol : forall X, INR (length (els3 V)) * X = IZR (v_nx W - 1) * IZR (v_ny W - 1) * IZR (v_nz W - 1) * X) by (intro; now rewrite (cells_len3 V W eq_refl eq_refl eq_refl SW DW), !mult_IZR).
  assert (Ar : area W = IZR (v_nx W - 1) * v_dx W * (IZR (v_ny W - 1) * v_dy W)) by (unfold area; cbn [omul ROps]; now rewrite (ge_x W GW), (ge_y W GW)).
  destruct (grid_pos W SW) as (C1 & C2). pose proof (ge_px W GW) as Pdx. pose proof (ge_py W GW) as Pdy.
  split; [|split].
  - intros vo vn b b' nl vn' er Ho Lv Lb E vo2 vn2 b2 Lv2 Lb2. rewrite nvars_eq in Lv, Lv2. rewrite (ndofs_eq3 V D) in Lb, Lb2.
    destruct (rhs3_ok V (oval u) (oval vo) S u vo vn b D Ru (has_old_ok _ _ Ho) Lv Lb) as (b4 & vn4 & E4 & R4 & _). rewrite E in E4. injection E4 as -> _ _ _.
    destruct (rhs3_ok W (oval r) (oval vo2) SW r vo2 vn2 b2 DW Rr (no_old W LW (oval vo2) vo2) Lv2 Lb2) as (b5 & vn5 & E5 & R5 & _).
    do 4 eexists. split; [exact E5|]. intros a x Ha Hx. rewrite (ndofs_eq3 V D) in Ha. destruct R4 as (_ & R4). destruct R5 as (_ & R5).
    rewrite (R4 a Ha) in Hx. injection Hx as <-. pose proof (resid_fin3 V H M (oval u) (oval vo) F Bd a D) as Fx. split; [exact Fx|].
    exists (resid W 3 (rhs_all3 W (oval r) (oval vo2)) a). split; [exact (R5 a Ha)|].
    eapply Rle_trans; [exact (proj2 (resid3_cn V W H M U TW (proj1 HU) _ _ Near D Some_cell (oval vo) (oval vo2) a) Fx)|]. rewrite wg3_R. unfold vol. rewrite pull3. apply Rle_refl.
  - intros vo vn s vn' Ho Lv E vo2 vn2 Lv2. rewrite nvars_eq in Lv, Lv2.
    destruct (ave_stress3_ok V (oval u) (oval vo) S u vo vn D Ru (has_old_ok _ _ Ho) Lv) as (vn4 & E4 & _). rewrite E in E4. injection E4 as -> _.
    destruct (ave_stress3_ok W (oval r) (oval vo2) SW r vo2 vn2 DW Rr (no_old W LW (oval vo2) vo2) Lv2) as (vn5 & E5 & _).
    do 2 eexists. split; [exact E5|]. intros v Hv. pose proof (proj1 (stress_bd3 V H M (oval u) (oval vo) F Bd D v Hv Gc)) as Fv. split; [exact Fv|]. eapply Rle_trans; [exact (proj2 (stress3_cn V W H M U TW (proj1 HU) _ _ Near D Some_cell _ _ v Hv) Fv)|]. rewrite <- Len.
    apply Rmult_le_compat_l; [apply gam_pos|]. rewrite Vol, wg3_R, Ar, (ge_z W GW DW). apply Req_le. now apply maj3.
  - do 2 eexists. split; [exact (ave_strain3_ok V (oval u) u D Ru)|]. split; [exact (ave_strain3_ok W (oval r) r DW Rr)|].
    intros v Hv. pose proof (avstrain_fin3 V H M (oval u) (oval u) F Bd v D Hv Gc) as Fv. split; [exact Fv|]. eapply Rle_trans; [exact (proj2 (avstrain3_cn V W H M U TW (proj1 HU) _ _ Near D Some_cell v Hv) Fv)|]. rewrite <- Len.
    apply Rmult_le_compat_l; [apply gam_pos|]. rewrite Vol, wg3_R, Ar, (ge_z W GW DW). apply Req_le. now apply strain3_maj.
Qed.

Theorem body_double2 : v_dim V = 2%Z -> let vol := v_dx W * v_dy W in
  (forall vo vn b b' nl vn' er, alen b = ndofs V -> assembly_rhs V u vo vn b = Ok (b', nl, vn', er) ->
   forall vo2 vn2 b2, alen b2 = ndofs V -> exists b3 nl3 vn3 n, assembly_rhs W r vo2 vn2 b2 = Ok (b3, nl3, vn3, n) /\
   forall a x, (0 <= a < ndofs V)%Z -> aget b' a = Some x -> fin x /\ exists y, aget b3 a = Some y /\ Rabs (val x - y) <= gam 165 * (1152 * (H * H) * M * vol * U)) /\
  (forall vo vn s vn', calc_ave_stress V u vo vn = Ok (s, vn') ->
   forall vo2 vn2, exists s2 vn3, calc_ave_stress W r vo2 vn2 = Ok (s2, vn3) /\
   forall v, (0 <= v < 3)%Z -> fin (lget s v) /\ Rabs (val (lget s v) - lget s2 v) <= gam (103 + Z.to_nat ((v_nx V - 1) * (v_ny V - 1))) * (96 * (M * H) * 1 * U)) /\
  exists e e2, calc_ave_strain V u = Ok e /\ calc_ave_strain W r = Ok e2 /\
   forall v, (0 <= v < 3)%Z -> fin (lget e v) /\ Rabs (val (lget e v) - lget e2 v) <= gam (103 + Z.to_nat ((v_nx V - 1) * (v_ny V - 1))) * (24 * H * 1 * U).
Proof.
  intros D vol. pose proof (fr_sane _ _ _ F) as S. pose proof (exact_sane V S) as SW. pose proof (fair_twin V H M F) as TW. destruct (body_W2 V H M F D) as (BW & _). pose proof BW as (_ & GW & DW).
  pose proof (near_cn V u r U Nr) as Cn. pose proof Nr as (Fu & Fr & _). pose proof (full_oval _ _ Fu) as Ru. pose proof (full_oval _ _ Fr) as Rr. rewrite (ndofs_eq2 V S D) in Ru, Rr.
  assert (Nz : v_nz V = 1%Z) by (destruct (sa_dim V S); lia).
  assert (Near : forall a, (0 <= a < v_nx V * v_ny V * v_nz V * v_dim V)%Z -> cn 12 (oval u a) (oval r a) U) by exact Cn.
  assert (Some_cell : (1 <= length (els2 V))%nat).
  { destruct (els2 V) as [|e l] eqn:Q; [|cbn [length]; lia]. exfalso. assert (In (0, 0)%Z (els2 V)) as I by (apply in_els2; pose proof (sa_nx V S); pose proof (sa_ny V S); lia). rewrite Q in I. exact I. }
  assert (Len : length (els2 V) = Z.to_nat ((v_nx V - 1) * (v_ny V - 1))).
  { apply INR_eq. rewrite (cells_len2 V W eq_refl eq_refl SW), INR_IZR_INZ. f_equal. cbn [exact_env v_nx v_ny v_nz]. pose proof (cells_dofs2 _ _ (sa_nx V S) (sa_ny V S)). lia. }
  assert (Gc : gam (length (els2 V)) <= / 2) by (eapply Rle_trans; [|exact G]; apply gam_le; rewrite Len, (ndofs_eq2 V S D); pose proof (cells_dofs2 _ _ (sa_nx V S) (sa_ny V S)); lia).
  pose proof (near_bd V u r U (proj2 HU) Nr) as Bd.
  assert (Vol : forall X, INR (length (els2 V)) * X = IZR (v_nx W - 1) * IZR (v_ny W - 1) * X) by (intro; now rewrite (cells_len2 V W eq_refl eq_refl SW), !mult_IZR).
  assert (Ar : area W = IZR (v_nx W - 1) * v_dx W * (IZR (v_ny W - 1) * v_dy W)) by (unfold area; cbn [omul ROps]; now rewrite (ge_x W GW), (ge_y W GW)).
  destruct (grid_pos W SW) as (C1 & C2). pose proof (ge_px W GW) as Pdx. pose proof (ge_py W GW) as Pdy.
  split; [|split].
  - intros vo vn b b' nl vn' er Lb E vo2 vn2 b2 Lb2. rewrite (ndofs_eq2 V S D) in Lb, Lb2.
    destruct (rhs2_ok V (oval u) (oval vo) S u vo vn b D Ru Lb) as (b4 & E4 & R4). rewrite E in E4. injection E4 as -> _ _ _.
    destruct (rhs2_ok W (oval r) (oval vo2) SW r vo2 vn2 b2 DW Rr Lb2) as (b5 & E5 & R5).
    do 4 eexists. split; [exact E5|]. intros a x Ha Hx. rewrite (ndofs_eq2 V S D) in Ha. destruct R4 as (_ & R4). destruct R5 as (_ & R5).
    rewrite (R4 a Ha) in Hx. injection Hx as <-. pose proof (resid_fin2 V H M (oval u) (oval vo) F Bd a D) as Fx. split; [exact Fx|].
    exists (resid W 2 (rhs_all2 W (oval r)) a). split; [exact (R5 a Ha)|].
    eapply Rle_trans; [exact (proj2 (resid2_cn V W H M U TW (proj1 HU) _ _ Near D Nz Some_cell a) Fx)|]. rewrite wg2_R. unfold vol. rewrite pull2. apply Rle_refl.
  - intros vo vn s vn' E vo2 vn2.
    pose proof (ave_stress2_ok V (oval u) S u vo vn D Ru) as E4. rewrite E in E4. injection E4 as -> _.
    do 2 eexists. split; [exact (ave_stress2_ok W (oval r) SW r vo2 vn2 DW Rr)|]. intros v Hv. pose proof (proj1 (stress_bd2 V H M (oval u) (oval vo) F Bd D v Hv Gc)) as Fv. split; [exact Fv|]. eapply Rle_trans; [exact (proj2 (stress2_cn V W H M U TW (proj1 HU) _ _ Near D Nz Some_cell v Hv) Fv)|]. rewrite <- Len.
    apply Rmult_le_compat_l; [apply gam_pos|]. rewrite Vol, wg2_R, Ar. apply Req_le. now apply maj2.
  - do 2 eexists. split; [exact (ave_strain2_ok V (oval u) u D Ru)|]. split; [exact (ave_strain2_ok W (oval r) r DW Rr)|].
    intros v Hv. pose proof (avstrain_fin2 V H M (oval u) (oval u) F Bd v D Hv Gc) as Fv. split; [exact Fv|]. eapply Rle_trans; [exact (proj2 (avstrain2_cn V W H M U TW (proj1 HU) _ _ Near D Nz Some_cell v Hv) Fv)|]. rewrite <- Len.
    apply Rmult_le_compat_l; [apply gam_pos|]. rewrite Vol, wg2_R, Ar. apply Req_le. now apply strain2_maj.
Qed.
End Body.
Lemma size_ge3 V H M L em m nb : fair V H M -> v_dim V = 3%Z -> val (v_lx V) <= L -> 0 <= em -> 0 < m -> 0 <= M -> 0 <= nb -> 2 * (em * L) <= size3 V M L em m nb.
Proof.
  intros F D Lx Em Hm HM Pn. destruct (body_W V H M F D) as ((SW & GW & DW) & _). destruct (geom_pos (exact_env V) SW GW) as (Px & Py).
  pose proof (ge_px _ GW) as Pdx. pose proof (ge_py _ GW) as Pdy. pose proof (ge_pz _ GW DW) as Pdz. pose proof (L_pos V H M L F Lx) as PL. assert (P0 : 0 <= em * L) by (apply Rmult_le_pos; lra).
  unfold size3. cbv zeta. set (W := exact_env V) in *.
  assert (P1 : 0 <= v_lx W * em * sqrt (45 * (IZR ((v_nx W - 1) * (v_ny W - 1) * (v_nz W - 1)) * M) / m)) by (apply nn3; try lra; apply sqrt_pos).
  assert (P2 : 0 <= 10 * (v_lx W * v_lx W) / (m * (v_dx W * v_dy W * v_dz W)) * nb).
  { apply Rmult_le_pos; [|exact Pn]. left. apply Rdiv_lt_0_compat; [assert (0 < v_lx W * v_lx W) by (now apply Rmult_lt_0_compat); lra|apply Rmult_lt_0_compat; [exact Hm|now apply pos3]]. }
  lra.
Qed.
Lemma size_ge2 V H M L em m nb : fair V H M -> v_dim V = 2%Z -> val (v_lx V) <= L -> 0 <= em -> 0 < m -> 0 <= M -> 0 <= nb -> 2 * (em * L) <= size2 V M L em m nb.
Proof.
  intros F D Lx Em Hm HM Pn. destruct (body_W2 V H M F D) as ((SW & GW & DW) & _). destruct (geom_pos (exact_env V) SW GW) as (Px & Py).
  pose proof (ge_px _ GW) as Pdx. pose proof (ge_py _ GW) as Pdy. pose proof (L_pos V H M L F Lx) as PL. assert (P0 : 0 <= em * L) by (apply Rmult_le_pos; lra).
  unfold size2. cbv zeta. set (W := exact_env V) in *.
  assert (P1 : 0 <= v_lx W * em * sqrt (10 * (IZR ((v_nx W - 1) * (v_ny W - 1)) * M) / m)) by (apply nn3; try lra; apply sqrt_pos).
  assert (P2 : 0 <= 4 * (v_lx W * v_lx W) / (m * (v_dx W * v_dy W)) * nb).
  { apply Rmult_le_pos; [|exact Pn]. left. apply Rdiv_lt_0_compat; [assert (0 < v_lx W * v_lx W) by (now apply Rmult_lt_0_compat); lra|apply Rmult_lt_0_compat; [exact Hm|now apply Rmult_lt_0_compat]]. }
  lra.
Qed.
Lemma respond_honest V fuel pk eps (w w' : work flt) nl it er s : sane V -> wok V w -> respond fuel pk V eps w = Ok (w', nl, it, er, s) -> all_fin V (w_u w') -> oltb er nr_tol = true ->
  exists vn b b' vn', alen vn = nvars V /\ alen b = ndofs V /\ assembly_rhs V (w_u w') (w_vold w) vn b = Ok (b', nl, vn', er).
Proof.
  intros S K E AF T. destruct (respond_split _ _ _ _ _ _ _ _ _ _ E) as (u0 & w1 & vn & Eu & En & Es & ->). cbn [set_vnew w_u] in AF |- *.
  destruct (displ_ok V eps (w_u w) S (wk_u _ _ K)) as (u2 & Eu2 & Fu0). rewrite Eu in Eu2. injection Eu2 as <-.
  assert (K1 : wok V (set_u w u0)) by (destruct K; constructor; assumption).
  destruct (newton_double V fuel pk (set_u w u0) w1 nl it er S K1 En AF) as (_ & _ & _ & _ & Hb). destruct (Hb T) as (vn3 & b3 & Lv3 & Lb3 & Er3). cbn [set_u w_vold] in Er3. eauto 10.
Qed.
Theorem respond_double3 V H M L em m (eps : list flt) fuel pk (w w' : work flt) nl it er s : fair V H M -> v_dim V = 3%Z ->
  val (v_lx V) <= L -> val (v_ly V) <= L -> val (v_lz V) <= L -> p2 (-40) <= em <= p2 100 ->
  (forall v, (0 <= v < 6)%Z -> fin (lget eps v) /\ Rabs (val (lget eps v)) <= em) -> 0 < m -> 0 <= M -> stiff3 (exact_env V) m M ->
  gam (S (Z.to_nat (ndofs V))) <= / 2 -> theta3 V H M m + gam 12 <= / 2 -> wok V w -> respond fuel pk V eps w = Ok (w', nl, it, er, s) -> oltb er nr_tol = true ->
  let W := exact_env V in let nb := norm_bound (ndofs V) er in let U := size3 V M L em m nb in
  (forall a x, (0 <= a < ndofs V)%Z -> aget (w_u w') a = Some x -> fin x /\ Rabs (val x) <= U) /\ (forall v, (0 <= v < 6)%Z -> fin (lget s v)) /\
  (exists vn b b' vn', alen vn = nvars V /\ alen b = ndofs V /\ assembly_rhs V (w_u w') (w_vold w) vn b = Ok (b', nl, vn', er)) /\
  exists v vo b n t, state3 W (map val eps) v vo b n t /\
    (forall a x y, (0 <= a < ndofs V)%Z -> aget (w_u w') a = Some x -> aget v a = Some y -> Rabs (val x - y) <= gam 12 * U) /\
    n <= nb + 4608 * (sqrt (INR (Z.to_nat (ndofs V))) * gam 165) * (H * H) * M * (v_dx W * v_dy W * v_dz W) * U /\
    forall i, (0 <= i < 6)%Z -> Rabs (val (lget s i) - lget t i) <= gam (103 + length (els3 V)) * (96 * (M * H) * v_lz W * U).
Proof.
  intros F D Lx Ly Lz Em He0 Hm HM Hs G Th K E T W nb U. pose proof (fun v Hv => proj1 (He0 v Hv)) as Fe. pose proof (fun v Hv => proj2 (He0 v Hv)) as He. pose proof (fr_sane _ _ _ F) as S.
  destruct (finite_stress3 V H M em m eps fuel pk w w' nl it er s F D Em Fe He Hm HM Hs G Th K E T) as (AF & Fs1). pose proof (fun v Hv => proj1 (Fs1 v Hv)) as Fs. pose proof (Raux.bpow_gt_0 Zaux.radix2 (-40)) as P40.
  pose proof (size_bound3 V H M L em m eps F D Lx Ly Lz (proj1 Em) He Hm HM Hs G Th fuel pk w w' nl it er s K E T AF) as SB.
  assert (Pn : 0 <= nb).
  { set (U0 := Rabs U + 2 * (em * L)). pose proof (L_pos V H M L F Lx) as PL. assert (P0 : 0 <= em * L) by (apply Rmult_le_pos; lra).
    assert (HU : 2 * (em * L) <= U0) by (unfold U0; pose proof (Rabs_pos U); lra).
    assert (Bu : forall a, (0 <= a < ndofs V)%Z -> Rabs (val (oval (w_u w') a)) <= U0) by (intros a Ha; eapply Rle_trans; [exact (SB a Ha)|]; fold nb; fold U; unfold U0; pose proof (Rle_abs U); lra).
    destruct (shadow3 V H M L em U0 eps F Lx Ly (fun _ => Lz) (proj1 Em) He HU fuel pk w w' nl it er s D K E T G AF Bu) as (q1 & q2 & q3 & q4 & q5 & _ & Q & _). exact Q. }
  pose proof (size_ge3 V H M L em m nb F D Lx ltac:(lra) Hm HM Pn) as HU.
  destruct (shadow3 V H M L em U eps F Lx Ly (fun _ => Lz) (proj1 Em) He HU fuel pk w w' nl it er s D K E T G AF SB) as (v & vo & b & n & t & St & _ & Nu & Bn & Bs).
  split; [intros a x Ha Hx; pose proof (AF a Ha) as A1; pose proof (SB a Ha) as A2; unfold oval in A1, A2; rewrite Hx in A1, A2; now split|]. split; [exact Fs|]. split; [exact (respond_honest V fuel pk eps w w' nl it er s S K E AF T)|].
  destruct (body_W V H M F D) as (BW & LW & _). pose proof BW as (SW & GW & DW).
  exists v, vo, b, n, t. split; [exact St|]. split; [|split].
  - intros a x y Ha Hx Hy. specialize (Nu a Ha). unfold oval in Nu. rewrite Hx, Hy in Nu. exact Nu.
  - eapply Rle_trans; [exact Bn|]. apply Rplus_le_compat_l, Req_le. rewrite wg3_R, pull3. fold W. ring.
  - intros i Hi. eapply Rle_trans; [exact (Bs i Hi (Fs i Hi))|]. apply Rmult_le_compat_l; [apply gam_pos|]. apply Req_le. fold W.
    rewrite (cells_len3 V W eq_refl eq_refl eq_refl SW DW), wg3_R. unfold area. change (v_lz (exact_env V)) with (v_lz W). rewrite (ge_z W GW DW). cbn [omul ROps]. rewrite (ge_x W GW), (ge_y W GW), !mult_IZR.
    destruct (grid_pos W SW) as (C1 & C2). pose proof (ge_px W GW) as Pdx. pose proof (ge_py W GW) as Pdy. now apply maj3.
Qed.
Theorem respond_double2 V H M L em m (eps : list flt) fuel pk (w w' : work flt) nl it er s : fair V H M -> v_dim V = 2%Z ->
  val (v_lx V) <= L -> val (v_ly V) <= L -> p2 (-40) <= em <= p2 100 ->
  (forall v, (0 <= v < 6)%Z -> fin (lget eps v) /\ Rabs (val (lget eps v)) <= em) -> 0 < m -> 0 <= M -> stiff2 (exact_env V) m M ->
  gam (S (Z.to_nat (ndofs V))) <= / 2 -> theta2 V H M m + gam 12 <= / 2 -> wok V w -> respond fuel pk V eps w = Ok (w', nl, it, er, s) -> oltb er nr_tol = true ->
  let W := exact_env V in let nb := norm_bound (ndofs V) er in let U := size2 V M L em m nb in
  (forall a x, (0 <= a < ndofs V)%Z -> aget (w_u w') a = Some x -> fin x /\ Rabs (val x) <= U) /\ (forall v, (0 <= v < 3)%Z -> fin (lget s v)) /\
  (exists vn b b' vn', alen vn = nvars V /\ alen b = ndofs V /\ assembly_rhs V (w_u w') (w_vold w) vn b = Ok (b', nl, vn', er)) /\
  exists v b n t, state2 W (map val eps) v b n t /\
    (forall a x y, (0 <= a < ndofs V)%Z -> aget (w_u w') a = Some x -> aget v a = Some y -> Rabs (val x - y) <= gam 12 * U) /\
    n <= nb + 1152 * (sqrt (INR (Z.to_nat (ndofs V))) * gam 165) * (H * H) * M * (v_dx W * v_dy W) * U /\
    forall i, (0 <= i < 3)%Z -> Rabs (val (lget s i) - lget t i) <= gam (103 + length (els2 V)) * (96 * (M * H) * 1 * U).
Proof.
  intros F D Lx Ly Em He0 Hm HM Hs G Th K E T W nb U. pose proof (fun v Hv => proj1 (He0 v Hv)) as Fe. pose proof (fun v Hv => proj2 (He0 v Hv)) as He. pose proof (fr_sane _ _ _ F) as S.
  destruct (finite_stress2 V H M em m eps fuel pk w w' nl it er s F D Em Fe He Hm HM Hs G Th K E T) as (AF & Fs1). pose proof (fun v Hv => proj1 (Fs1 v Hv)) as Fs. pose proof (Raux.bpow_gt_0 Zaux.radix2 (-40)) as P40.
  pose proof (size_bound2 V H M L em m eps F D Lx Ly (proj1 Em) He Hm HM Hs G Th fuel pk w w' nl it er s K E T AF) as SB.
  assert (Pn : 0 <= nb).
  { set (U0 := Rabs U + 2 * (em * L)). pose proof (L_pos V H M L F Lx) as PL. assert (P0 : 0 <= em * L) by (apply Rmult_le_pos; lra).
    assert (HU : 2 * (em * L) <= U0) by (unfold U0; pose proof (Rabs_pos U); lra).
    assert (Bu : forall a, (0 <= a < ndofs V)%Z -> Rabs (val (oval (w_u w') a)) <= U0) by (intros a Ha; eapply Rle_trans; [exact (SB a Ha)|]; fold nb; fold U; unfold U0; pose proof (Rle_abs U); lra).
    destruct (shadow2 V H M L em U0 eps F Lx Ly (Lz0 V L D) (proj1 Em) He HU fuel pk w w' nl it er s D K E T G AF Bu) as (q1 & q2 & q3 & q4 & _ & Q & _). exact Q. }
  pose proof (size_ge2 V H M L em m nb F D Lx ltac:(lra) Hm HM Pn) as HU.
  destruct (shadow2 V H M L em U eps F Lx Ly (Lz0 V L D) (proj1 Em) He HU fuel pk w w' nl it er s D K E T G AF SB) as (v & b & n & t & St & _ & Nu & Bn & Bs).
  split; [intros a x Ha Hx; pose proof (AF a Ha) as A1; pose proof (SB a Ha) as A2; unfold oval in A1, A2; rewrite Hx in A1, A2; now split|]. split; [exact Fs|]. split; [exact (respond_honest V fuel pk eps w w' nl it er s S K E AF T)|].
  destruct (body_W2 V H M F D) as (BW & _). pose proof BW as (SW & GW & DW).
  exists v, b, n, t. split; [exact St|]. split; [|split].
  - intros a x y Ha Hx Hy. specialize (Nu a Ha). unfold oval in Nu. rewrite Hx, Hy in Nu. exact Nu.
  - eapply Rle_trans; [exact Bn|]. apply Rplus_le_compat_l, Req_le. rewrite wg2_R, pull2. fold W. ring.
  - intros i Hi. eapply Rle_trans; [exact (Bs i Hi (Fs i Hi))|]. apply Rmult_le_compat_l; [apply gam_pos|]. apply Req_le. fold W.
    rewrite (cells_len2 V W eq_refl eq_refl SW), wg2_R. unfold area. cbn [omul ROps]. rewrite (ge_x W GW), (ge_y W GW), !mult_IZR.
    destruct (grid_pos W SW) as (C1 & C2). pose proof (ge_px W GW) as Pdx. pose proof (ge_py W GW) as Pdy. now apply maj2.
Qed.

(** ** The bounds in the arguments of the constructor *)
Theorem answers_double3 fuel0 q0 (j : junk flt) nx ny nz mtype (mp : list flt) mt (ps : list flt) o0 H L m M :
  let lx := val (lget mp 0) in let ly := val (lget mp 1) in let lz := val (lget mp 2) in let cells := ((nx - 1) * (ny - 1) * (nz - 1))%Z in
  let vol := lx / IZR (nx - 1) * (ly / IZR (ny - 1)) * (lz / IZR (nz - 1)) in let N := Z.to_nat (nx * ny * nz * 3) in let rho := sqrt (INR N) * gam 165 in
  valid_args 3 nx ny nz mtype mp mt ps -> total_junk j -> construct fuel0 q0 j 3 [nx; ny; nz] mtype mp mt ps = Ok o0 ->
  fair_args 3 nx ny nz mp ps H L M -> no_plastic mt -> 0 < m -> moduli3 (map val ps) m M ->
  gam (S N) <= / 2 -> 46080 * (lx * lx) * (H * H) * (M / m) * rho + gam 12 <= / 2 ->
  exists K : Z -> Z -> R, (forall v i, (0 <= v < 6)%Z -> (0 <= i < 6)%Z -> K v i = K i v) /\
  (forall e, exists u vo b s, state3 (exact_env (o_env o0)) e u vo b 0 s) /\
  (forall e u vo b s, state3 (exact_env (o_env o0)) e u vo b 0 s -> forall v, (0 <= v < 6)%Z -> lget s v = dot 6 (K v) (lget e)) /\
  forall cs o fs fuel q id e o' fs' r em g, reaches o0 cs o fs -> last_set id e cs -> p2 (-40) <= em <= p2 100 -> (forall v, (0 <= v < 6)%Z -> fin (lget e v) /\ Rabs (val (lget e v)) <= em) ->
  step (Homogenize fuel q) (o, fs) = Ok (o', fs', r) -> lookup id (o_gps o) = Some g -> ~ below o g ->
  exists g' er, lookup id (o_gps o') = Some g' /\ aget (g_err g') 0 = Some er /\
  let nb := (1 + 4 * gam (S N)) * (val er + eta) + 2 * sqrt (INR N * tiny) in
  let U := 2 * (2 * (em * L) + lx * em * sqrt (45 * (IZR cells * M) / m) + 10 * (lx * lx) / (m * vol) * nb) in
  (oltb er nr_tol = true -> forall v x, (0 <= v < 6)%Z -> aget (g_stress g') v = Some x -> fin x /\
    ly * Rabs (val x - dot 6 (K v) (fun i => val (lget e i))) <=
      (nb + 4608 * rho * (H * H) * M * vol * U) * sqrt (10 * (IZR cells * M) / m) + ly * (gam (103 + Z.to_nat cells) * (96 * (M * H) * lz * U))).
Proof.
  intros lx ly lz cells vol N rho A J C FA NP Hm Mo G Th. destruct (built3 fuel0 q0 j nx ny nz mtype mp mt ps o0 H L m M A J C FA NP Hm Mo) as (Sv & (tol & EV) & FV & St & D & EN & PM).
  pose proof (eo_nx _ _ _ _ _ _ _ _ _ _ EV) as EX. pose proof (eo_ny _ _ _ _ _ _ _ _ _ _ EV) as EY. pose proof (eo_nz _ _ _ _ _ _ _ _ _ _ EV) as EZ.
  pose proof (eo_lx _ _ _ _ _ _ _ _ _ _ EV) as LX. pose proof (eo_ly _ _ _ _ _ _ _ _ _ _ EV) as LY. pose proof (eo_lz _ _ _ _ _ _ _ _ _ _ EV) as LZ. cbn [Z.eqb Pos.eqb] in EZ, LZ.
  destruct (body_W (o_env o0) H M FV D) as (BW & LW & AW). pose proof BW as (SW & _ & DW).
  assert (Len : length (els3 (o_env o0)) = Z.to_nat cells).
  { apply INR_eq. rewrite (cells_len3 (o_env o0) (exact_env (o_env o0)) eq_refl eq_refl eq_refl SW DW), INR_IZR_INZ. f_equal. cbn [exact_env v_nx v_ny v_nz]. pose proof (cells_dofs3 _ _ _ (sa_nx _ Sv) (sa_ny _ Sv) (sane_nz _ Sv D)). unfold cells. rewrite EX, EY, EZ in *. lia. }
  assert (Th2 : theta3 (o_env o0) H M m + gam 12 <= / 2) by (unfold theta3; rewrite LX, EN; exact Th).
  destruct (double_answers3 fuel0 q0 j nx ny nz mtype mp mt ps o0 H L m M A J C FA NP Hm Mo G Th2) as (K & Sy & Ex & Ap). exists K. split; [exact Sy|]. split.
  { intro e. destruct (AsmEquil.equilibrium_exists3 (exact_env (o_env o0)) e (fun_arr 0 (fun _ => 0)) (fun_arr (ncells (exact_env (o_env o0)) * 56) (fun _ => 0)) BW LW AW) as (u & b & s & Q); [|eauto].
    split; [intros e1 g i He' Hg Hi P; rewrite (LW e1 He') in P; discriminate|reflexivity]. }
  split; [exact Ex|]. intros cs o fs fuel q id e o' fs' r em g R0 Ls Em He Hs Lg Nb. destruct (Ap cs o fs fuel q id e o' fs' r em g R0 Ls Em He Hs Lg Nb) as (g' & er & Lg' & Eg & Q). exists g', er. split; [exact Lg'|]. split; [exact Eg|].
  cbv zeta. intros T v x Hv Hx. destruct (Q T v x Hv Hx) as (Fx & B). split; [exact Fx|]. eapply Rle_trans; [exact B|]. apply Req_le. unfold stress_gap3, spread, size3, norm_bound. cbv zeta. cbn [exact_env v_nx v_ny v_nz v_lx v_ly v_lz v_dx v_dy v_dz].
  rewrite EN, Len, EX, EY, EZ, LX, LY, LZ. reflexivity.
Qed.
Theorem answers_double2 fuel0 q0 (j : junk flt) nx ny nz mtype (mp : list flt) mt (ps : list flt) o0 H L m M :
  let lx := val (lget mp 0) in let ly := val (lget mp 1) in let cells := ((nx - 1) * (ny - 1))%Z in
  let vol := lx / IZR (nx - 1) * (ly / IZR (ny - 1)) in let N := Z.to_nat (nx * ny * 2) in let rho := sqrt (INR N) * gam 165 in
  valid_args 2 nx ny nz mtype mp mt ps -> total_junk j -> construct fuel0 q0 j 2 [nx; ny; nz] mtype mp mt ps = Ok o0 ->
  fair_args 2 nx ny nz mp ps H L M -> 0 < m -> moduli2 (map val ps) m M ->
  gam (S N) <= / 2 -> 4608 * (lx * lx) * (H * H) * (M / m) * rho + gam 12 <= / 2 ->
  exists K : Z -> Z -> R, (forall v i, (0 <= v < 3)%Z -> (0 <= i < 3)%Z -> K v i = K i v) /\
  (forall e, exists u b s, state2 (exact_env (o_env o0)) e u b 0 s) /\
  (forall e u b s, state2 (exact_env (o_env o0)) e u b 0 s -> forall v, (0 <= v < 3)%Z -> lget s v = dot 3 (K v) (lget e)) /\
  forall cs o fs fuel q id e o' fs' r em g, reaches o0 cs o fs -> last_set id e cs -> p2 (-40) <= em <= p2 100 -> (forall v, (0 <= v < 3)%Z -> fin (lget e v) /\ Rabs (val (lget e v)) <= em) ->
  step (Homogenize fuel q) (o, fs) = Ok (o', fs', r) -> lookup id (o_gps o) = Some g -> ~ below o g ->
  exists g' er, lookup id (o_gps o') = Some g' /\ aget (g_err g') 0 = Some er /\
  let nb := (1 + 4 * gam (S N)) * (val er + eta) + 2 * sqrt (INR N * tiny) in
  let U := 2 * (2 * (em * L) + lx * em * sqrt (10 * (IZR cells * M) / m) + 4 * (lx * lx) / (m * vol) * nb) in
  (oltb er nr_tol = true -> forall v x, (0 <= v < 3)%Z -> aget (g_stress g') v = Some x -> fin x /\
    ly * Rabs (val x - dot 3 (K v) (fun i => val (lget e i))) <=
      (nb + 1152 * rho * (H * H) * M * vol * U) * sqrt (4 * (IZR cells * M) / m) + ly * (gam (103 + Z.to_nat cells) * (96 * (M * H) * 1 * U))).
Proof.
  intros lx ly cells vol N rho A J C FA Hm Mo G Th. destruct (built2 fuel0 q0 j nx ny nz mtype mp mt ps o0 H L m M A J C FA Hm Mo) as (Sv & (tol & EV) & FV & St & D & EN & PM).
  pose proof (eo_nx _ _ _ _ _ _ _ _ _ _ EV) as EX. pose proof (eo_ny _ _ _ _ _ _ _ _ _ _ EV) as EY.
  pose proof (eo_lx _ _ _ _ _ _ _ _ _ _ EV) as LX. pose proof (eo_ly _ _ _ _ _ _ _ _ _ _ EV) as LY.
  destruct (body_W2 (o_env o0) H M FV D) as (BW & AW). pose proof BW as (SW & _ & DW).
  assert (Len : length (els2 (o_env o0)) = Z.to_nat cells).
  { apply INR_eq. rewrite (cells_len2 (o_env o0) (exact_env (o_env o0)) eq_refl eq_refl SW), INR_IZR_INZ. f_equal. cbn [exact_env v_nx v_ny v_nz]. pose proof (cells_dofs2 _ _ (sa_nx _ Sv) (sa_ny _ Sv)). unfold cells. rewrite EX, EY in *. lia. }
  assert (Th2 : theta2 (o_env o0) H M m + gam 12 <= / 2) by (unfold theta2; rewrite LX, EN; exact Th).
  destruct (double_answers2 fuel0 q0 j nx ny nz mtype mp mt ps o0 H L m M A J C FA Hm Mo G Th2) as (K & Sy & Ex & Ap). exists K. split; [exact Sy|]. split; [intro e; exact (AsmEquil.equilibrium_exists2 (exact_env (o_env o0)) e BW AW)|].
  split; [exact Ex|]. intros cs o fs fuel q id e o' fs' r em g R0 Ls Em He Hs Lg Nb. destruct (Ap cs o fs fuel q id e o' fs' r em g R0 Ls Em He Hs Lg Nb) as (g' & er & Lg' & Eg & Q). exists g', er. split; [exact Lg'|]. split; [exact Eg|].
  cbv zeta. intros T v x Hv Hx. destruct (Q T v x Hv Hx) as (Fx & B). split; [exact Fx|]. eapply Rle_trans; [exact B|]. apply Req_le. unfold stress_gap2, spread, size2, norm_bound. cbv zeta. cbn [exact_env v_nx v_ny v_nz v_lx v_ly v_lz v_dx v_dy v_dz].
  rewrite EN, Len, EX, EY, LX, LY. reflexivity.
Qed.
