(** The plastic tangents: the one in use is bounded by the elastic one, the other two are not tangents. *)
From Coq Require Import Reals Lra ZifyBool.
From Verif Require Import Base Scalar Grid EllModel EllSpec EllFinal EllProps CgPure CgFinal CgProps AssemblyModel AsmPure AsmBnd FemGen FemAve AsmRun AsmMat
  FemMat FemMat2 FemDef FemPd FemRhs FemEquil PlastProps AsmEx PlastRef AsmSpec AsmProps AsmPoint AsmEquil AsmCases MonoPoint MonoBody MonoUnif TanModel.
Open Scope Z_scope.
Open Scope R_scope.

(** elastic tangent: stress component j for a unit strain component i *)
Definition elastic_tan (m : material R) (j i : Z) : R := hooke m (fun k => if (k =? i)%Z then 1 else 0) j.

Lemma deps_R : (deps_pert : R) = 1 / 100000000.
Proof. unfold deps_pert, dec. cbn [odiv ofZ ROps]. change (10 ^ 8)%Z with 100000000%Z. reflexivity. Qed.
Lemma compl_scal m c t : compliance m (fun i => c * t i) = c * c * compliance m t.
Proof.
  unfold compliance, contract6, dev6, trace6. cbn [Z.ltb Z.compare Pos.compare Pos.compare_cont]. unfold Rdiv. ring.
Qed.
Lemma dot_unit s i c : (0 <= i < 6)%Z -> dot 6 s (fun k => if (k =? i)%Z then c else 0) = s i * c.
Proof. intros Hi. rewrite dot6. pattern i. apply case6; [exact Hi|..]; cbn [Z.eqb Pos.eqb]; ring. Qed.
Lemma hooke_scal m c t j : hooke m (fun k => c * t k) j = c * hooke m t j.
Proof. unfold hooke. destruct (j <? 3)%Z; ring. Qed.
Lemma elastic_tan_diag m i : (0 <= i < 6)%Z -> elastic_tan m i i = if (i <? 3)%Z then m_lambda m + 2 * m_mu m else m_mu m.
Proof.
  intros Hi. unfold elastic_tan, hooke. pattern i. apply case6; [exact Hi|..]; cbn [Z.ltb Z.compare Pos.compare Pos.compare_cont Z.eqb Pos.eqb]; ring.
Qed.
Lemma ctan3_elastic m j i : (0 <= j < 6)%Z -> (0 <= i < 6)%Z -> ctan3 (m_lambda m) (m_mu m) j i = elastic_tan m j i.
Proof.
  intros Hj Hi. unfold ctan3, elastic_tan, hooke. cbn [oadd omul ofZ ROps].
  pattern j. apply case6; [exact Hj|..]; (pattern i; apply case6; [exact Hi|..]);
    cbn [Z.ltb Z.compare Pos.compare Pos.compare_cont Z.eqb Pos.eqb andb]; ring.
Qed.

Lemma nth6 {A} (f : Z -> A) d i : (0 <= i < 6)%Z -> nth (Z.to_nat i) (map f (zrange 0 6)) d = f i.
Proof. intros Hi. pattern i. apply case6; [exact Hi|..]; reflexivity. Qed.
Lemma ptan_R V uf of e g j i : (0 <= j < 6)%Z -> (0 <= i < 6)%Z ->
  ptan V uf of e g j i = (lget (sig3 V of e g (pert V uf e g i)) j - lget (sig3 V of e g (strain3 V uf e g)) j) / (1 / 100000000).
Proof. intros Hj Hi. unfold ptan. rewrite nth6 by assumption. unfold pcol. rewrite lget_ltab by assumption. rewrite deps_R. reflexivity. Qed.
Lemma pert_diff V uf e g i k : (0 <= k < 6)%Z -> lget (pert V uf e g i) k - lget (strain3 V uf e g) k = 1 / 100000000 * (if (k =? i)%Z then 1 else 0).
Proof. intros Hk. unfold pert. rewrite lget_ltab by assumption. rewrite deps_R. cbn [oadd ROps]. destruct (k =? i)%Z; ring. Qed.

Lemma hooke_ext2 m f h j : (0 <= j < 6)%Z -> (forall i, (0 <= i < 6)%Z -> f i = h i) -> hooke m f j = hooke m h j.
Proof. intros Hj H. unfold hooke. now rewrite !H by lia. Qed.

Theorem pert_bounds V u vold vnew ex ey ez g m c vn : body3 V -> full u (ndofs V) -> vars_ok V vold vnew -> is_cell3 V ex ey ez -> (0 <= g < 8)%Z ->
  cell_mat V ex ey ez m -> admissible m -> 0 <= m_Sy m + m_Ka m * val vold (var3 V ex ey ez g 6) ->
  ctan_plast_pert V u vold vnew ex ey ez g = Ok (c, vn) -> forall i, (0 <= i < 6)%Z ->
  compliance m (fun j => c j i) <= c i i <= elastic_tan m i i /\ 0 <= c i i /\
  forall j, (0 <= j < 6)%Z -> c j i * c j i <= Rmax (2 * m_mu m) (3 * m_lambda m + 2 * m_mu m) * c i i.
Proof.
  intros (S & G & D) Fu W Hc Hg Hm A Hy E i Hi. assert (He : In (ex, ey, ez) (els3 V)) by now apply in_els3.
  destruct (cell_m V ex ey ez m S D Hc Hm) as (Em & _). pose proof (full_rep _ _ Fu) as Ru. rewrite (ndofs3 V D) in Ru.
  rewrite (plast_pert_ok V (val u) (val vold) S u vold vnew ex ey ez g D Ru (vars_old _ _ _ W) He Hg) in E.
  destruct (run_stores _ vnew) as [v'|]; [|discriminate]. injection E as <- <-.
  set (e0 := strain3 V (val u) (ex, ey, ez) g). set (e1 := pert V (val u) (ex, ey, ez) g i).
  pose proof (mono_sig3 V (val vold) (ex, ey, ez) g e1 e0) as H. cbv zeta in H. rewrite Em in H.
  destruct (H A) as (H1 & H2); [intros _; rewrite <- var3_ix; exact Hy|]. clear H.
  pose proof (adm_mu m A) as Hmu. pose proof (adm_k m A) as Hk. pose proof (adm_bulk m A) as Hb.
  set (t := fun j => ptan V (val u) (val vold) (ex, ey, ez) g j i). set (d := 1 / 100000000) in *. assert (Pd : 0 < d) by (unfold d; lra).
  assert (HD : forall j, (0 <= j < 6)%Z -> lget (sig3 V (val vold) (ex, ey, ez) g e1) j - lget (sig3 V (val vold) (ex, ey, ez) g e0) j = d * t j).
  { intros j Hj. unfold t. rewrite ptan_R by assumption. fold e0 e1. fold d. field. lra. }
  assert (HE : forall k, (0 <= k < 6)%Z -> lget e1 k - lget e0 k = (if (k =? i)%Z then d else 0)).
  { intros k Hk'. unfold e1, e0. rewrite pert_diff by assumption. fold d. destruct (k =? i)%Z; ring. }
  rewrite (compl_ext m _ (fun j => d * t j) HD), compl_scal in H1.
  rewrite (dot6_ext _ (fun j => d * t j) _ (fun k => if (k =? i)%Z then d else 0) HD HE) in H1, H2. rewrite dot_unit in H1, H2 by assumption.
  assert (HH : dot 6 (hooke m (fun k => lget e1 k - lget e0 k)) (fun k => lget e1 k - lget e0 k) = d * d * elastic_tan m i i).
  { rewrite (dot6_ext _ (fun j => d * elastic_tan m j i) _ (fun k => if (k =? i)%Z then d else 0)); [rewrite dot_unit by assumption; ring| |exact HE].
    intros j Hj. unfold elastic_tan. rewrite <- hooke_scal. apply hooke_ext2; [exact Hj|]. intros k Hk'. rewrite HE by assumption. destruct (k =? i)%Z; ring. }
  rewrite HH in H2. assert (P2 : 0 < d * d) by now apply Rmult_lt_0_compat.
  assert (L1 : compliance m t <= t i) by (apply (Rmult_le_reg_l (d * d)); [exact P2|lra]).
  assert (L2 : t i <= elastic_tan m i i) by (apply (Rmult_le_reg_l (d * d)); [exact P2|lra]).
  assert (L0 : 0 <= compliance m t) by (apply compl_pos; lra).
  split; [split; [exact L1|exact L2]|]. split; [change (0 <= t i); lra|]. intros j Hj.
  set (M := Rmax (2 * m_mu m) (3 * m_lambda m + 2 * m_mu m)).
  assert (Q : t j * t j <= M * compliance m t).
  { apply (sq_compl m t M j Hmu); [lra|apply Rmax_l| |exact Hj]. replace (3 * (m_lambda m + 2 * m_mu m / 3)) with (3 * m_lambda m + 2 * m_mu m) by field. apply Rmax_r. }
  change (t j * t j <= M * t i). assert (0 <= M) by (pose proof (Rmax_l (2 * m_mu m) (3 * m_lambda m + 2 * m_mu m)); fold M in H; lra).
  pose proof (Rmult_le_compat_l M _ _ H L1). lra.
Qed.

(** no flow at the strain nor at the six perturbed ones: elastic *)
Theorem pert_elastic V u vold vnew ex ey ez g m c vn : body3 V -> full u (ndofs V) -> vars_ok V vold vnew -> is_cell3 V ex ey ez -> (0 <= g < 8)%Z ->
  cell_mat V ex ey ez m -> admissible m -> m_plast m = Some true ->
  (forall eps, get_strain3D V u ex ey ez g = Ok eps -> forall x, (x = eps \/ exists i, (0 <= i < 6)%Z /\ x = ltab 6 (fun j => lget eps j + if (j =? i)%Z then 1 / 100000000 else 0)) ->
     exists s v', get_stress3D V vold vnew ex ey ez g x = Ok (false, s, v')) ->
  ctan_plast_pert V u vold vnew ex ey ez g = Ok (c, vn) -> forall i j, (0 <= i < 6)%Z -> (0 <= j < 6)%Z -> c j i = elastic_tan m j i.
Proof.
  intros BD Fu W Hc Hg Hm A Pl NF E i j Hi Hj. pose proof BD as (S & G & D). assert (He : In (ex, ey, ez) (els3 V)) by now apply in_els3.
  destruct (cell_m V ex ey ez m S D Hc Hm) as (Em & Ep). apply Ep in Pl. pose proof (full_rep _ _ Fu) as Ru. rewrite (ndofs3 V D) in Ru.
  rewrite (plast_pert_ok V (val u) (val vold) S u vold vnew ex ey ez g D Ru (vars_old _ _ _ W) He Hg) in E.
  destruct (run_stores _ vnew) as [v'|]; [|discriminate]. injection E as <- _.
  assert (Est : get_strain3D V u ex ey ez g = Ok (strain3 V (val u) (ex, ey, ez) g)) by now apply strain3_ok.
  specialize (NF _ Est).
  assert (NL : forall x, (x = strain3 V (val u) (ex, ey, ez) g \/ exists i, (0 <= i < 6)%Z /\ x = ltab 6 (fun j => lget (strain3 V (val u) (ex, ey, ez) g) j + if (j =? i)%Z then 1 / 100000000 else 0)) ->
    ps_nl (step3 V (val vold) (ex, ey, ez) g x) = false).
  { intros x Hx. destruct (NF x Hx) as (s & w & Es). rewrite (stress3_ok V (val vold) (val vold)) in Es by (assumption || exact (vars_old _ _ _ W)).
    destruct (run_stores _ vnew) as [y|] in Es; [|discriminate]. injection Es as En _ _. unfold nl3 in En. rewrite Pl in En. exact En. }
  assert (LIN : forall x, ps_nl (step3 V (val vold) (ex, ey, ez) g x) = false -> forall k, (0 <= k < 6)%Z ->
    lget (sig3 V (val vold) (ex, ey, ez) g x) k = (if (k <? 3)%Z then m_k m * tr x else 0) + trial m x (ltab 6 (fun q => val vold (intvar_ix (ix3 V (ex, ey, ez)) g q))) k).
  { intros x Hx k Hk. unfold sig3. rewrite Pl. unfold step3 in *. rewrite Em in *.
    destruct (step_forms m x (ltab 6 (fun q => val vold (intvar_ix (ix3 V (ex, ey, ez)) g q))) (val vold (intvar_ix (ix3 V (ex, ey, ez)) g 6)) (adm_mu m A)) as (_ & Q & _).
    destruct (Q k Hk) as (_ & ->). rewrite Hx. ring. }
  rewrite ptan_R by assumption. set (d := 1 / 100000000) in *. assert (Pd : 0 < d) by (unfold d; lra).
  set (e0 := strain3 V (val u) (ex, ey, ez) g) in *.
  assert (Epe : pert V (val u) (ex, ey, ez) g i = ltab 6 (fun k => lget e0 k + if (k =? i)%Z then d else 0)).
  { unfold pert, ltab. apply map_ext. intros k. fold e0. rewrite deps_R. fold d. cbn [oadd ROps]. destruct (k =? i)%Z; lra. }
  assert (N0 : ps_nl (step3 V (val vold) (ex, ey, ez) g e0) = false) by (apply NL; left; reflexivity).
  assert (N1 : ps_nl (step3 V (val vold) (ex, ey, ez) g (ltab 6 (fun k => lget e0 k + if (k =? i)%Z then d else 0))) = false)
    by (apply NL; right; exists i; split; [exact Hi|reflexivity]).
  rewrite Epe, (LIN _ N0 j Hj), (LIN _ N1 j Hj). pose proof (adm_bulk m A) as Hk. clear - Hk Pd Hi Hj. unfold trial, tr, elastic_tan, hooke.
  assert (Hd : d <> 0) by lra. rewrite !lget_ltab by lia. rewrite <- Hk.
  pattern j; apply case6; [exact Hj|..]; (pattern i; apply case6; [exact Hi|..]);
    cbn [Z.ltb Z.compare Pos.compare Pos.compare_cont Z.eqb Pos.eqb]; field; exact Hd.
Qed.

(** ** the tangent called exact *)
Theorem exact_elastic V u ex ey ez g m : body3 V -> full u (ndofs V) -> is_cell3 V ex ey ez -> (0 <= g < 8)%Z -> cell_mat V ex ey ez m ->
  exists c, ctan_plast_exact V u ex ey ez g = Ok c /\ forall i j, (0 <= i < 6)%Z -> (0 <= j < 6)%Z -> c j i = elastic_tan m j i.
Proof.
  intros (S & G & D) Fu Hc Hg Hm. assert (He : In (ex, ey, ez) (els3 V)) by now apply in_els3.
  pose proof (full_rep _ _ Fu) as Ru. rewrite (ndofs3 V D) in Ru. destruct (cell_m V ex ey ez m S D Hc Hm) as (Em & _).
  exists (ctan3 (m_lambda m) (m_mu m)). split; [|intros i j Hi Hj; now apply ctan3_elastic].
  unfold ctan_plast_exact. rewrite (strain3_ok V (val u)) by assumption. cbn [bind].
  change (glo_elem3D (v_nx V) (v_ny V) ex ey ez) with (ix3 V (ex, ey, ez)).
  rewrite get_material_ok; [|exact S|now apply (ix3_range V _ D)]. cbn [bind fst]. now rewrite Em.
Qed.

(** ** the secant tangent *)
Lemma lin_hooke m eps j : (0 <= j < 6)%Z -> lget (lin_stress3 (m_lambda m) (m_mu m) eps) j = hooke m (lget eps) j.
Proof.
  intros Hj. unfold lin_stress3. rewrite lget_ltab by assumption. unfold hooke. pattern j; apply case6; [exact Hj|..]; cbv [Z.ltb Z.compare Pos.compare Pos.compare_cont oadd omul ofZ ROps]; try ring.
Qed.
Section Sec.
Variable V : env R.
Variables uf of : Z -> R.
Hypothesis S : sane V.
Definition ssec (e : Z * Z * Z) (g i : Z) : list R := sec_strain (strain3 V uf e g) i.
Definition scol (e : Z * Z * Z) (g i : Z) : list R := ltab 6 (fun j => lget (sig3 V of e g (ssec e g i)) j / lget (ssec e g i) i).
Definition stan (e : Z * Z * Z) (g j i : Z) : R := lget (nth (Z.to_nat i) (map (scol e g) (zrange 0 6)) []) j.
Definition sst (e : Z * Z * Z) (g : Z) : list (Z * R) := flat_map (fun i => st3 V of e g (ssec e g i)) (zrange 0 6).
Lemma plast_sec_ok u vold vnew ex ey ez g : v_dim V = 3%Z -> rep u (v_nx V * v_ny V * v_nz V * 3) uf ->
  old_ok V of vold -> In (ex, ey, ez) (els3 V) -> (0 <= g < 8)%Z ->
  ctan_plast_sec V u vold vnew ex ey ez g = (vn <- run_stores (sst (ex, ey, ez) g) vnew ;; Ok (stan (ex, ey, ez) g, vn)).
Proof.
  intros D U O H Hg. unfold ctan_plast_sec. rewrite (strain3_ok V uf) by assumption. cbn [bind].
  rewrite (fold_stores _ (fun a i => a ++ [scol (ex, ey, ez) g i]) (fun i => st3 V of (ex, ey, ez) g (ssec (ex, ey, ez) g i))).
  - rewrite fold_snoc, bind_assoc. reflexivity.
  - intros a v' i Hi. cbn [fst snd]. rewrite (stress3_ok V uf of) by assumption. rewrite bind_assoc. reflexivity.
Qed.
Lemma stan_R e g j i : (0 <= j < 6)%Z -> (0 <= i < 6)%Z -> stan e g j i = lget (sig3 V of e g (ssec e g i)) j / lget (ssec e g i) i.
Proof. intros Hj Hi. unfold stan. rewrite nth6 by assumption. unfold scol. now rewrite lget_ltab. Qed.
End Sec.

(** the strain with component i only: the i-th strain, or 1e-8 where that is at most 1e-7 *)
Definition only (x : R) (i : Z) : list R := ltab 6 (fun k => if (k =? i)%Z then x else 0).
Definition probe (x : R) : R := if Rlt_dec (1 / 10000000) (Rabs x) then x else 1 / 100000000.
Lemma probe_nz x : probe x <> 0.
Proof. unfold probe. destruct (Rlt_dec _ _) as [L|]; [|lra]. intros ->. rewrite Rabs_R0 in L. lra. Qed.
Lemma ltab_ext6 {A} (f h : Z -> A) : (forall k, (0 <= k < 6)%Z -> f k = h k) -> ltab 6 f = ltab 6 h.
Proof. intros H. unfold ltab. apply map_ext_in. intros k Hk. apply in_zrange in Hk. auto. Qed.
Lemma sec_only e0 i : sec_strain e0 i = only (probe (lget e0 i)) i.
Proof.
  unfold sec_strain, only, probe. apply ltab_ext6. intros k Hk. destruct (k =? i)%Z.
  - unfold dec. cbn [oltb odiv ofZ oabs ROps]. change (10 ^ 7)%Z with 10000000%Z. change (10 ^ 8)%Z with 100000000%Z.
    unfold Rltb. destruct (Rlt_dec (1 / 10000000) (Rabs (lget e0 i))); reflexivity.
  - unfold dec. cbn [odiv ofZ ROps]. unfold Rdiv. apply Rmult_0_l.
Qed.

(** no plastic strain stored and none of the six strains flows: elastic *)
Theorem sec_elastic V u vold vnew ex ey ez g m eps c vn : body3 V -> full u (ndofs V) -> vars_ok V vold vnew -> is_cell3 V ex ey ez -> (0 <= g < 8)%Z ->
  cell_mat V ex ey ez m -> admissible m ->
  (forall i, (0 <= i < 6)%Z -> val vold (var3 V ex ey ez g i) = 0) -> get_strain3D V u ex ey ez g = Ok eps ->
  (forall i, (0 <= i < 6)%Z -> exists s v', get_stress3D V vold vnew ex ey ez g (only (probe (lget eps i)) i) = Ok (false, s, v')) ->
  ctan_plast_sec V u vold vnew ex ey ez g = Ok (c, vn) -> forall i j, (0 <= i < 6)%Z -> (0 <= j < 6)%Z -> c j i = elastic_tan m j i.
Proof.
  intros BD Fu W Hc Hg Hm A Z0 Est NF E i j Hi Hj. pose proof BD as (S & G & D). assert (He : In (ex, ey, ez) (els3 V)) by now apply in_els3.
  destruct (cell_m V ex ey ez m S D Hc Hm) as (Em & Ep). pose proof (full_rep _ _ Fu) as Ru. rewrite (ndofs3 V D) in Ru.
  rewrite (plast_sec_ok V (val u) (val vold) S u vold vnew ex ey ez g D Ru (vars_old _ _ _ W) He Hg) in E.
  destruct (run_stores _ vnew) as [v'|]; [|discriminate]. injection E as <- _.
  rewrite (strain3_ok V (val u)) in Est by assumption. injection Est as <-.
  rewrite stan_R by assumption. unfold ssec. rewrite sec_only. set (x := probe (lget (strain3 V (val u) (ex, ey, ez) g) i)).
  assert (Hx : x <> 0) by apply probe_nz. destruct (NF i Hi) as (s & w & Es). fold x in Es. clear NF.
  rewrite (stress3_ok V (val vold) (val vold)) in Es by (assumption || exact (vars_old _ _ _ W)).
  destruct (run_stores _ vnew) as [y|] in Es; [|discriminate]. injection Es as En _ _.
  assert (LIN : lget (sig3 V (val vold) (ex, ey, ez) g (only x i)) j = x * elastic_tan m j i).
  { unfold elastic_tan. rewrite <- hooke_scal. rewrite (hooke_ext2 m _ (lget (only x i))); [|exact Hj|intros k Hk; unfold only; rewrite lget_ltab by assumption; destruct (k =? i)%Z; ring].
    unfold sig3, nl3 in *. destruct (plastic_at V (ix3 V (ex, ey, ez))) eqn:Epl.
    - unfold step3 in *. rewrite Em in *. set (ep := ltab 6 _) in *.
      assert (X0 : forall k, (0 <= k < 6)%Z -> lget ep k = 0) by (intros k Hk; unfold ep; rewrite lget_ltab by assumption; rewrite <- var3_ix; auto).
      destruct (step_forms m (only x i) ep (val vold (intvar_ix (ix3 V (ex, ey, ez)) g 6)) (adm_mu m A)) as (_ & Q & _).
      destruct (Q j Hj) as (_ & ->). rewrite En. unfold trial, hooke, tr. rewrite !X0 by lia. rewrite <- (adm_bulk m A). destruct (j <? 3)%Z; field.
    - rewrite Em. now apply lin_hooke. }
  rewrite LIN. unfold only. rewrite lget_ltab, Z.eqb_refl by assumption. field. exact Hx.
Qed.

(** both tangents always give a result *)
Lemma pert_total V u vold vnew ex ey ez g : body3 V -> full u (ndofs V) -> vars_ok V vold vnew -> is_cell3 V ex ey ez -> (0 <= g < 8)%Z ->
  exists c vn, ctan_plast_pert V u vold vnew ex ey ez g = Ok (c, vn).
Proof.
  intros (S & G & D) Fu W Hc Hg. assert (He : In (ex, ey, ez) (els3 V)) by now apply in_els3. pose proof (full_rep _ _ Fu) as Ru. rewrite (ndofs3 V D) in Ru.
  rewrite (plast_pert_ok V (val u) (val vold) S u vold vnew ex ey ez g D Ru (vars_old _ _ _ W) He Hg).
  destruct (run_stores_ok (pst V (val u) (val vold) (ex, ey, ez) g) vnew) as (vn & E & _); [|rewrite E; cbn [bind]; eauto].
  intros j x Hj. rewrite (proj2 W). unfold pst in Hj. apply in_app_or in Hj. destruct Hj as [Hj|Hj]; [now apply (st3_range V (val u) (val vold) _ _ _ _ x D He Hg Hj)|].
  apply in_flat_map in Hj. destruct Hj as (i & _ & Hj). now apply (st3_range V (val u) (val vold) _ _ _ _ x D He Hg Hj).
Qed.
Lemma sec_total V u vold vnew ex ey ez g : body3 V -> full u (ndofs V) -> vars_ok V vold vnew -> is_cell3 V ex ey ez -> (0 <= g < 8)%Z ->
  exists vn, ctan_plast_sec V u vold vnew ex ey ez g = Ok (stan V (val u) (val vold) (ex, ey, ez) g, vn).
Proof.
  intros (S & G & D) Fu W Hc Hg. assert (He : In (ex, ey, ez) (els3 V)) by now apply in_els3. pose proof (full_rep _ _ Fu) as Ru. rewrite (ndofs3 V D) in Ru.
  rewrite (plast_sec_ok V (val u) (val vold) S u vold vnew ex ey ez g D Ru (vars_old _ _ _ W) He Hg).
  destruct (run_stores_ok (sst V (val u) (val vold) (ex, ey, ez) g) vnew) as (vn & E & _); [|rewrite E; cbn [bind]; eauto].
  intros j x Hj. rewrite (proj2 W). unfold sst in Hj. apply in_flat_map in Hj. destruct Hj as (i & _ & Hj). now apply (st3_range V (val u) (val vold) _ _ _ _ x D He Hg Hj).
Qed.

Definition hooke_entry (m : material R) (j i : Z) : R :=
  if ((i <? 3) && (j <? 3))%Z then m_lambda m + (if (i =? j)%Z then 2 * m_mu m else 0) else if (i =? j)%Z then m_mu m else 0.
Lemma elastic_entry_eq m j i : (0 <= i < 6)%Z -> (0 <= j < 6)%Z -> elastic_tan m j i = hooke_entry m j i.
Proof.
  intros Hi Hj. unfold elastic_tan, hooke, hooke_entry.
  pattern j; apply case6; [exact Hj|..]; (pattern i; apply case6; [exact Hi|..]); cbn [Z.ltb Z.compare Pos.compare Pos.compare_cont Z.eqb Pos.eqb andb]; ring.
Qed.
Lemma pert_elastic_entries V u vold vnew ex ey ez g m c vn : body3 V -> full u (ndofs V) -> vars_ok V vold vnew -> is_cell3 V ex ey ez -> (0 <= g < 8)%Z ->
  cell_mat V ex ey ez m -> admissible m -> m_plast m = Some true ->
  (forall eps, get_strain3D V u ex ey ez g = Ok eps -> forall x, (x = eps \/ exists i, (0 <= i < 6)%Z /\ x = ltab 6 (fun j => lget eps j + if (j =? i)%Z then 1 / 100000000 else 0)) ->
     exists s v', get_stress3D V vold vnew ex ey ez g x = Ok (false, s, v')) ->
  ctan_plast_pert V u vold vnew ex ey ez g = Ok (c, vn) -> forall i j, (0 <= i < 6)%Z -> (0 <= j < 6)%Z -> c j i = hooke_entry m j i.
Proof.
  intros BD Fu W Hc Hg Hm A Pl NF E i j Hi Hj. rewrite <- elastic_entry_eq by assumption. exact (pert_elastic V u vold vnew ex ey ez g m c vn BD Fu W Hc Hg Hm A Pl NF E i j Hi Hj).
Qed.
Lemma exact_entries V u ex ey ez g m : body3 V -> full u (ndofs V) -> is_cell3 V ex ey ez -> (0 <= g < 8)%Z -> cell_mat V ex ey ez m ->
  exists c, ctan_plast_exact V u ex ey ez g = Ok c /\ forall i j, (0 <= i < 6)%Z -> (0 <= j < 6)%Z -> c j i = hooke_entry m j i.
Proof.
  intros BD Fu Hc Hg Hm. destruct (exact_elastic V u ex ey ez g m BD Fu Hc Hg Hm) as (c & E & H). exists c. split; [exact E|].
  intros i j Hi Hj. rewrite <- elastic_entry_eq by assumption. auto.
Qed.
Lemma sec_entries V u vold vnew ex ey ez g m eps c vn : body3 V -> full u (ndofs V) -> vars_ok V vold vnew -> is_cell3 V ex ey ez -> (0 <= g < 8)%Z ->
  cell_mat V ex ey ez m -> admissible m ->
  (forall i, (0 <= i < 6)%Z -> val vold (var3 V ex ey ez g i) = 0) -> get_strain3D V u ex ey ez g = Ok eps ->
  (forall i, (0 <= i < 6)%Z -> exists s v', get_stress3D V vold vnew ex ey ez g (only (probe (lget eps i)) i) = Ok (false, s, v')) ->
  ctan_plast_sec V u vold vnew ex ey ez g = Ok (c, vn) -> forall i j, (0 <= i < 6)%Z -> (0 <= j < 6)%Z -> c j i = hooke_entry m j i.
Proof.
  intros BD Fu W Hc Hg Hm A Z0 Es NF E i j Hi Hj. rewrite <- elastic_entry_eq by assumption. exact (sec_elastic V u vold vnew ex ey ez g m eps c vn BD Fu W Hc Hg Hm A Z0 Es NF E i j Hi Hj).
Qed.
