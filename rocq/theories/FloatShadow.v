(** The exact body next to a solution in doubles: what the object reports is, up to rounding errors
    given explicitly, what the exact body of the same inputs reports for a field next to it. *)
From Coq Require Import Reals Lra ZifyBool ZifyNat.
From Flocq Require Import BinarySingleNaN.
From Verif Require Import Base Scalar MonoBody ConvexMin EllSpec EllInit EllAsm EllFinal Grid CgPure CgProps AssemblyModel AsmPure AsmBnd AsmRun AsmSpec AsmProps AsmEquil FemGen FemAve FemRhs AsmMat FemPd
  MicroModel NewtonBase NanRun NewtonReal KornProps BinInst FloatSum FloatCg FloatFem FloatBody FloatMat FloatNewton FloatBnd.
Open Scope Z_scope.
Open Scope R_scope.
Notation val := (@B2R 53 1024).

(** ** Lengths *)
Lemma len_nonneg n f : 0 <= len n f.
Proof. apply sqrt_pos. Qed.
Lemma len_tri n f h : len n (fun r => f r + h r) <= len n f + len n h.
Proof.
  apply Rsqr_incr_0_var; [|pose proof (len_nonneg n f); pose proof (len_nonneg n h); lra]. unfold Rsqr. rewrite len_sq.
  replace ((len n f + len n h) * (len n f + len n h)) with (len n f * len n f + 2 * (len n f * len n h) + len n h * len n h) by ring. rewrite !len_sq.
  pose proof (cauchy n f h) as C. apply abs_le in C.
  replace (rsum (zrange 0 n) (fun r => (f r + h r) * (f r + h r))) with
    (rsum (zrange 0 n) (fun r => f r * f r) + 2 * rsum (zrange 0 n) (fun r => f r * h r) + rsum (zrange 0 n) (fun r => h r * h r)); [lra|].
  rewrite <- rsum_scal, <- !rsum_plus. apply rsum_ext. intros; ring.
Qed.
Lemma len_const n f c : 0 <= c -> (forall r, (0 <= r < n)%Z -> Rabs (f r) <= c) -> len n f <= sqrt (INR (Z.to_nat n)) * c.
Proof.
  intros Pc H. rewrite <- (sqrt_square c Pc), <- sqrt_mult_alt by apply pos_INR. apply sqrt_le_1_alt.
  assert (E : INR (Z.to_nat n) * (c * c) = rsum (zrange 0 n) (fun _ => c * c)) by (rewrite rsum_const, length_zrange, Z.sub_0_r; reflexivity).
  rewrite E. apply rsum_le. intros r Hr. apply in_zrange in Hr. specialize (H r Hr). replace (f r * f r) with (Rabs (f r) * Rabs (f r)) by (rewrite <- Rabs_mult; apply Rabs_pos_eq, Rle_0_sqr). apply Rmult_le_compat; try apply Rabs_pos; exact H.
Qed.

(** ** The pieces of a response in doubles *)
Lemma respond_split V fuel pk eps (w w' : work flt) nl it er s : respond fuel pk V eps w = Ok (w', nl, it, er, s) ->
  exists u w1 vn, set_displ V eps (w_u w) = Ok u /\ newton fuel pk V (set_u w u) = Ok (w1, nl, it, er) /\
    calc_ave_stress V (w_u w1) (w_vold w1) (w_vnew w1) = Ok (s, vn) /\ w' = set_vnew w1 vn.
Proof.
  intros E. unfold respond in E. destruct (set_displ V eps (w_u w)) as [u|]; cbn [bind] in E; [|discriminate].
  destruct (newton fuel pk V (set_u w u)) as [(((w1, nl1), it1), er1)|] eqn:En; cbn [bind] in E; [|discriminate].
  destruct (calc_ave_stress V (w_u w1) (w_vold w1) (w_vnew w1)) as [(s1, vn)|] eqn:Es; cbn [bind fst snd] in E; [|discriminate].
  injection E as <- <- <- <- <-. exists u, w1, vn. auto.
Qed.
Lemma outside_inner {T} (V : env T) a : sane V -> (0 <= a < ndofs V)%Z -> ~ bnddof V a -> inner V a.
Proof.
  intros S Ha N. destruct (dim_cases V S) as [D|D].
  - destruct (dof2_split V a S D Ha) as (i & j & c & Hi & Hj & Hc & -> & B). exists i, j, 0%Z, c. rewrite D. unfold bnd2, on_bnd in B. cbn [Z.eqb Pos.eqb].
    assert (~ ((i = 0 \/ i = v_nx V - 1) \/ (j = 0 \/ j = v_ny V - 1))%Z) by tauto. repeat split; lia.
  - destruct (dof3_split V a S D Ha) as (i & j & k & c & Hi & Hj & Hk & Hc & -> & B). exists i, j, k, c. rewrite D. unfold bnd3, on_bnd in B. cbn [Z.eqb Pos.eqb].
    assert (~ ((i = 0 \/ i = v_nx V - 1) \/ (j = 0 \/ j = v_ny V - 1) \/ (k = 0 \/ k = v_nz V - 1))%Z) by tauto. repeat split; lia.
Qed.
Section Shadow.
Variables (V : env flt) (H M L em U : R) (eps : list flt).
Hypothesis F : fair V H M.
Hypothesis Lx : val (v_lx V) <= L.
Hypothesis Ly : val (v_ly V) <= L.
Hypothesis Lz : v_dim V = 3%Z -> val (v_lz V) <= L.
Hypothesis Em : p2 (-40) <= em.
Hypothesis He : forall v, (0 <= v < 6)%Z -> Rabs (val (lget eps v)) <= em.
Hypothesis HU : 2 * (em * L) <= U.
Local Notation W := (exact_env V).
Lemma shadow_field (u u0 u' : arr flt) : EllFinal.full u (ndofs V) -> set_displ V eps u = Ok u0 -> all_fin V u0 -> keeps V u0 u' -> EllFinal.full u' (ndofs V) -> 
  (forall a, (0 <= a < ndofs V)%Z -> Rabs (val (oval u' a)) <= U) ->
  exists v, set_displ W (map val eps) (fun_arr (ndofs V) (fun a => val (oval u' a))) = Ok v /\ EllFinal.full v (ndofs V) /\
    forall a, (0 <= a < ndofs V)%Z -> cn 12 (oval u' a) (oval v a) U.
Proof.
  intros Fu Eu Fu0 Ku Fu' Bu. pose proof (fr_sane _ _ _ F) as S. pose proof (exact_sane V S) as SW.
  set (x := fun_arr (ndofs V) (fun a => val (oval u' a))). pose proof (fun_arr_rep (ndofs V) (fun a => val (oval u' a))) as Rx. fold x in Rx.
  destruct (displ_ok W (map val eps) x SW) as (v & Ev & Fv). { eapply rep_full. exact Rx. }
  exists v. split; [exact Ev|]. split; [exact Fv|]. intros a Ha.
  assert (Same : aget v a = aget x a -> cn 12 (oval u' a) (oval v a) U).
  { intros E. unfold oval at 2. rewrite E, (proj2 Rx a Ha). apply cn_val. now apply Bu. }
  assert (In1 : ~ bnddof V a -> aget v a = aget x a).
  { intros N. refine (displ_keeps W (map val eps) x v a SW Ev _). exact (outside_inner V a S Ha N). }
  assert (Two : (aget u0 a = aget u a /\ aget v a = aget x a) \/ exists p q, aget u0 a = Some p /\ aget v a = Some q /\ cn 12 p q (2 * (em * L))).
  { pose proof (displ_cn V H M L em eps F Lx Ly Lz Em He) as C. unfold set_displ in Eu, Ev. cbn [exact_env v_dim] in Ev. destruct (v_dim V =? 2)%Z eqn:D2.
    - exact (stores_f2 (fun p q => cn 12 p q (2 * (em * L))) _ _ C _ _ _ _ Eu Ev a).
    - destruct (v_dim V =? 3)%Z eqn:D3; [|exfalso; destruct (dim_cases V S); lia]. apply Z.eqb_eq in D3.
      exact (stores_f2 (fun p q => cn 12 p q (2 * (em * L))) _ _ (C D3) _ _ _ _ Eu Ev a). }
  destruct Two as [(_ & E)|(p & q & Ep & Eq & C)]; [exact (Same E)|].
  unfold bnddof in *. destruct (bndb V (v_nz V) (a / v_dim V)) eqn:B; [|apply Same, In1; discriminate].
  pose proof (Ku a Ha B) as K. assert (Ov : oval u0 a = p) by (unfold oval; now rewrite Ep). rewrite Ov in K.
  pose proof (Fu0 a Ha) as Fp. rewrite Ov in Fp. replace (oval v a) with q by (unfold oval; now rewrite Eq).
  apply (cn_le _ 12 _ _ _ U) in C; [|lia|exact HU]. split; [exact (proj1 C)|]. intros _. rewrite K. exact (proj2 C Fp).
Qed.

(** the residual norm behind a reported one: the sum of squares and the root are rounded *)
Definition norm_bound (n : Z) (er : flt) : R := (1 + 4 * gam (S (Z.to_nat n))) * (val er + eta) + 2 * sqrt (INR (Z.to_nat n) * tiny).
Lemma tol_fin : fin (nr_tol : flt).
Proof. vm_compute. reflexivity. Qed.
Lemma resid_near n (x : Z -> flt) (y : Z -> R) k c : 0 <= c -> gam (S (Z.to_nat n)) <= / 2 -> oltb (norm2 n x) nr_tol = true ->
  (forall a, (0 <= a < n)%Z -> cn k (x a) (y a) c) -> norm2 n y <= norm_bound n (norm2 n x) + sqrt (INR (Z.to_nat n)) * (gam k * c).
Proof.
  intros Pc G T C. pose proof (less_fin _ _ T tol_fin) as Fe. destruct (norm_entry n x G Fe) as (Fx & B). fold (norm2 n x) in B.
  rewrite norm2_R. change (sqrt (rsum (zrange 0 n) (fun i => y i * y i))) with (len n y). change (sqrt (rsum (zrange 0 n) (fun i => val (x i) * val (x i)))) with (len n (fun i => val (x i))) in B.
  replace (len n y) with (len n (fun i => val (x i) + (y i - val (x i)))) by (apply len_ext; intros r _; ring).
  eapply Rle_trans; [apply len_tri|]. apply Rplus_le_compat; [exact B|]. apply len_const; [apply Rmult_le_pos; [apply gam_pos|exact Pc]|].
  intros r Hr. rewrite Rabs_minus_sym. exact (proj2 (C r Hr) (Fx r Hr)).
Qed.
Lemma bound_pos n (x : Z -> flt) : gam (S (Z.to_nat n)) <= / 2 -> oltb (norm2 n x) nr_tol = true -> 0 <= norm_bound n (norm2 n x).
Proof.
  intros G T. destruct (norm_entry n x G (less_fin _ _ T tol_fin)) as (_ & B). fold (norm2 n x) in B. eapply Rle_trans; [apply sqrt_pos|exact B].
Qed.
Lemma U_big : p2 (-100) <= U.
Proof.
  apply Rle_trans with (em * L); [|pose proof (em_pos em Em); pose proof (L_pos V H M L F Lx); assert (0 < em * L) by (apply Rmult_lt_0_compat; assumption); lra].
  exact (p2_mul (-40) (-60) _ _ Em (L_big V H M L F Lx)).
Qed.
Lemma linear_old (of : Z -> R) vo : linear W -> old_ok W of vo.
Proof. intros Ln e g i He' Hg Hi P. rewrite (Ln e He') in P. discriminate. Qed.

Theorem shadow3 fuel pk (w w' : work flt) nl it er s : v_dim V = 3%Z -> wok V w -> respond fuel pk V eps w = Ok (w', nl, it, er, s) -> oltb er nr_tol = true ->
  gam (S (Z.to_nat (ndofs V))) <= / 2 -> all_fin V (w_u w') -> (forall a, (0 <= a < ndofs V)%Z -> Rabs (val (oval (w_u w') a)) <= U) ->
  exists v vo b n t, state3 W (map val eps) v vo b n t /\ 0 <= norm_bound (ndofs V) er /\
    (forall a, (0 <= a < ndofs V)%Z -> Rabs (val (oval (w_u w') a) - oval v a) <= gam 12 * U) /\
    n <= norm_bound (ndofs V) er + sqrt (INR (Z.to_nat (ndofs V))) * (gam 165 * (8 * (8 * (6 * (H * (96 * (M * (H * U))) * wg3 W))))) /\
    forall i, (0 <= i < 6)%Z -> fin (lget s i) ->
      Rabs (val (lget s i) - lget t i) <= gam (103 + length (els3 V)) * (INR (length (els3 V)) * (8 * (96 * (M * (H * U)) * wg3 W)) / area W).
Proof.
  intros D K E T G AF Bu. pose proof (fr_sane _ _ _ F) as S. pose proof (exact_sane V S) as SW. pose proof (fair_twin V H M F) as TW.
  destruct (respond_split _ _ _ _ _ _ _ _ _ _ E) as (u0 & w1 & vn & Eu & En & Es & ->). cbn [set_vnew w_u] in AF, Bu |- *.
  destruct (displ_ok V eps (w_u w) S (wk_u _ _ K)) as (u2 & Eu2 & Fu0). rewrite Eu in Eu2. injection Eu2 as <-.
  assert (K1 : wok V (set_u w u0)) by (destruct K; constructor; assumption).
  pose proof (newton_ok V pk fuel (set_u w u0) S K1) as NO. rewrite En in NO. destruct NO as (_ & K2 & _).
  pose proof (full_oval _ _ (wk_u _ _ K2)) as Ru. assert (Ru3 := Ru). rewrite (ndofs_eq3 V D) in Ru3.
  pose proof (wk_new _ _ K2) as Ln. rewrite nvars_eq in Ln.
  destruct (ave_stress3_ok V _ _ S (w_u w1) (w_vold w1) (w_vnew w1) D Ru3 (has_old_ok _ _ (wk_old _ _ K2)) Ln) as (vn2 & Es2 & _).
  rewrite Es in Es2. injection Es2 as Es2 _.
  destruct (newton_double V fuel pk (set_u w u0) w1 nl it er S K1 En AF) as (AF0 & Kp & Ov & _ & Hb). cbn [set_u w_u w_vold] in AF0, Kp, Ov, Hb.
  destruct (Hb T) as (vn3 & b3 & Lv3 & Lb3 & Er3). rewrite nvars_eq in Lv3. rewrite (ndofs_eq3 V D) in Lb3.
  destruct (shadow_field (w_u w) u0 (w_u w1) (wk_u _ _ K) Eu AF0 Kp (wk_u _ _ K2) Bu) as (v & Ev & Fv & Cv).
  assert (Near : forall a, (0 <= a < v_nx V * v_ny V * v_nz V * v_dim V)%Z -> cn 12 (oval (w_u w1) a) (oval v a) U) by exact Cv.
  pose proof (full_oval _ _ Fv) as Rv. change (ndofs V) with (ndofs W) in Rv. assert (DW : v_dim W = 3%Z) by exact D. rewrite (ndofs_eq3 W DW) in Rv.
  pose proof (exact_linear V S (fr_lin _ _ _ F D)) as LW. assert (BW : body3 W) by (split; [exact SW|split; [exact (exact_geom V H M F)|exact D]]).
  set (vo := fun_arr 0 (fun _ => 0) : arr R). set (vw := fun_arr (ncells W * 56) (fun _ => 0) : arr R). set (bw := fun_arr (ndofs W) (fun _ => 0) : arr R).
  destruct (rhs3_ok W (oval v) (fun _ => 0) SW v vo vw bw DW Rv (linear_old _ _ LW) eq_refl) as (b' & vn' & Er & Rb & _). { unfold bw. cbn [fun_arr alen]. exact (ndofs_eq3 W DW). }
  destruct (ave_stress3_ok W (oval v) (fun _ => 0) SW v vo vw DW Rv (linear_old _ _ LW) eq_refl) as (vn4 & Ea & _).
  assert (Some_cell : (1 <= length (els3 V))%nat).
  { destruct (els3 V) as [|e l] eqn:Q; [|cbn [length]; lia]. exfalso. assert (In (0, 0, 0)%Z (els3 V)) as I by (apply in_els3; pose proof (sa_nx V S); pose proof (sa_ny V S); pose proof (sane_nz V S D); lia). rewrite Q in I. exact I. }
  destruct (rhs3_ok V (oval (w_u w1)) (oval (w_vold w1)) S (w_u w1) (w_vold w1) vn3 b3 D Ru3 (has_old_ok _ _ (wk_old _ _ K2)) Lv3 Lb3) as (b4 & vn5 & Er4 & _ & _).
  rewrite Ov in Er4 at 1. rewrite Er3 in Er4. injection Er4 as _ _ _ Ee.
  do 5 eexists. split; [|split; [|split; [|split]]].
  - exists vw, bw. do 3 eexists. split; [exact Fv|]. split; [split; [|reflexivity]|]. { intros e g i He' Hg Hi P. rewrite (LW e He') in P. discriminate. }
    split; [reflexivity|]. split; [|split; [exact Er|exact Ea]].
    destruct (displ3_spec W (map val eps) (fun_arr (ndofs V) (fun a => val (oval (w_u w1) a))) BW eq_refl) as (v2 & Ev2 & _ & Af & _). rewrite Ev in Ev2. injection Ev2 as <-. exact Af.
  - rewrite Ee in T |- *. rewrite <- (ndofs_eq3 V D) in *. now apply bound_pos.
  - intros a Ha. exact (proj2 (Cv a Ha) (AF a Ha)).
  - rewrite Ee in *. rewrite <- (ndofs_eq3 V D) in *. change (v_nx W * v_ny W * v_nz W * 3)%Z with (v_nx V * v_ny V * v_nz V * 3)%Z. rewrite <- (ndofs_eq3 V D).
    apply resid_near; [| exact G| exact T|].
    + exact (cn_pos _ _ _ _ (resid3_cn V W H M U TW U_big _ _ Near D Some_cell (oval (w_vold w1)) (fun _ => 0) 0%Z)).
    + intros a Ha. exact (resid3_cn V W H M U TW U_big _ _ Near D Some_cell (oval (w_vold w1)) (fun _ => 0) a).
  - intros i Hi Fi. rewrite Es2 in Fi |- *. exact (proj2 (stress3_cn V W H M U TW U_big _ _ Near D Some_cell _ _ i Hi) Fi).
Qed.

Theorem shadow2 fuel pk (w w' : work flt) nl it er s : v_dim V = 2%Z -> wok V w -> respond fuel pk V eps w = Ok (w', nl, it, er, s) -> oltb er nr_tol = true ->
  gam (S (Z.to_nat (ndofs V))) <= / 2 -> all_fin V (w_u w') -> (forall a, (0 <= a < ndofs V)%Z -> Rabs (val (oval (w_u w') a)) <= U) ->
  exists v b n t, state2 W (map val eps) v b n t /\ 0 <= norm_bound (ndofs V) er /\
    (forall a, (0 <= a < ndofs V)%Z -> Rabs (val (oval (w_u w') a) - oval v a) <= gam 12 * U) /\
    n <= norm_bound (ndofs V) er + sqrt (INR (Z.to_nat (ndofs V))) * (gam 165 * (4 * (4 * (3 * (H * (96 * (M * (H * U))) * wg2 W))))) /\
    forall i, (0 <= i < 3)%Z -> fin (lget s i) ->
      Rabs (val (lget s i) - lget t i) <= gam (103 + length (els2 V)) * (INR (length (els2 V)) * (4 * (96 * (M * (H * U)) * wg2 W)) / area W).
Proof.
  intros D K E T G AF Bu. pose proof (fr_sane _ _ _ F) as S. pose proof (exact_sane V S) as SW. pose proof (fair_twin V H M F) as TW.
  destruct (respond_split _ _ _ _ _ _ _ _ _ _ E) as (u0 & w1 & vn & Eu & En & Es & ->). cbn [set_vnew w_u] in AF, Bu |- *.
  destruct (displ_ok V eps (w_u w) S (wk_u _ _ K)) as (u2 & Eu2 & Fu0). rewrite Eu in Eu2. injection Eu2 as <-.
  assert (K1 : wok V (set_u w u0)) by (destruct K; constructor; assumption).
  pose proof (newton_ok V pk fuel (set_u w u0) S K1) as NO. rewrite En in NO. destruct NO as (_ & K2 & _).
  pose proof (full_oval _ _ (wk_u _ _ K2)) as Ru. assert (Ru2 := Ru). rewrite (ndofs_eq2 V S D) in Ru2.
  pose proof (ave_stress2_ok V _ S (w_u w1) (w_vold w1) (w_vnew w1) D Ru2) as Es2.
  rewrite Es in Es2. injection Es2 as Es2 _.
  destruct (newton_double V fuel pk (set_u w u0) w1 nl it er S K1 En AF) as (AF0 & Kp & Ov & _ & Hb). cbn [set_u w_u w_vold] in AF0, Kp, Ov, Hb.
  destruct (Hb T) as (vn3 & b3 & Lv3 & Lb3 & Er3). rewrite (ndofs_eq2 V S D) in Lb3.
  destruct (shadow_field (w_u w) u0 (w_u w1) (wk_u _ _ K) Eu AF0 Kp (wk_u _ _ K2) Bu) as (v & Ev & Fv & Cv).
  assert (Near : forall a, (0 <= a < v_nx V * v_ny V * v_nz V * v_dim V)%Z -> cn 12 (oval (w_u w1) a) (oval v a) U) by exact Cv.
  pose proof (full_oval _ _ Fv) as Rv. change (ndofs V) with (ndofs W) in Rv. assert (DW : v_dim W = 2%Z) by exact D. rewrite (ndofs_eq2 W SW DW) in Rv.
  assert (BW : body2 W) by (split; [exact SW|split; [exact (exact_geom V H M F)|exact D]]).
  assert (Nz : v_nz V = 1%Z) by (destruct (sa_dim V S); lia).
  set (vo := fun_arr 0 (fun _ => 0) : arr R). set (bw := fun_arr (ndofs W) (fun _ => 0) : arr R).
  destruct (rhs2_ok W (oval v) (fun _ => 0) SW v vo vo bw DW Rv) as (b' & Er & Rb). { unfold bw. cbn [fun_arr alen]. exact (ndofs_eq2 W SW DW). }
  pose proof (ave_stress2_ok W (oval v) SW v vo vo DW Rv) as Ea.
  assert (Some_cell : (1 <= length (els2 V))%nat).
  { destruct (els2 V) as [|e l] eqn:Q; [|cbn [length]; lia]. exfalso. assert (In (0, 0)%Z (els2 V)) as I by (apply in_els2; pose proof (sa_nx V S); pose proof (sa_ny V S); lia). rewrite Q in I. exact I. }
  destruct (rhs2_ok V (oval (w_u w1)) (oval (w_u w1)) S (w_u w1) (w_vold w1) vn3 b3 D Ru2 Lb3) as (b4 & Er4 & _).
  rewrite Ov in Er4 at 1. rewrite Er3 in Er4. injection Er4 as _ _ _ Ee.
  do 4 eexists. split; [|split; [|split; [|split]]].
  - exists vo, vo, bw. do 3 eexists. split; [exact Fv|]. split; [reflexivity|]. split; [|split; [exact Er|exact Ea]].
    destruct (displ2_spec W (map val eps) (fun_arr (ndofs V) (fun a => val (oval (w_u w1) a))) BW eq_refl) as (v2 & Ev2 & _ & Af & _). rewrite Ev in Ev2. injection Ev2 as <-. exact Af.
  - rewrite Ee in T |- *. rewrite <- (ndofs_eq2 V S D) in *. now apply bound_pos.
  - intros a Ha. exact (proj2 (Cv a Ha) (AF a Ha)).
  - rewrite Ee in *. change (v_nx W * v_ny W * 2)%Z with (v_nx V * v_ny V * 2)%Z. rewrite <- (ndofs_eq2 V S D) in *.
    apply resid_near; [| exact G| exact T|].
    + exact (cn_pos _ _ _ _ (resid2_cn V W H M U TW U_big _ _ Near D Nz Some_cell 0%Z)).
    + intros a Ha. exact (resid2_cn V W H M U TW U_big _ _ Near D Nz Some_cell a).
  - intros i Hi Fi. rewrite Es2 in Fi |- *. exact (proj2 (stress2_cn V W H M U TW U_big _ _ Near D Nz Some_cell i Hi) Fi).
Qed.
End Shadow.
