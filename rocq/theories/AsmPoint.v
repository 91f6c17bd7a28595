(** Plastic Gauss points: one step, the flag, and the writes of the trial variables. *)
From Coq Require Import Reals Lra ZifyBool.
From Verif Require Import Base Scalar EllSpec EllInit Grid EllModel EllFinal EllProps CgProps AssemblyModel AsmPure AsmBnd AsmRun FemAve FemPd FemMat2 FemRhs FemEquil
  PlastProps AsmEx PlastRef AsmSpec AsmProps.
Open Scope Z_scope.
Open Scope R_scope.

Lemma cell3_ix V ex ey ez : cell3 V ex ey ez = ix3 V (ex, ey, ez).
Proof. unfold cell3, ix3, glo_elem3D. ring. Qed.
Lemma var3_ix V ex ey ez g i : var3 V ex ey ez g i = intvar_ix (ix3 V (ex, ey, ez)) g i.
Proof. unfold var3, intvar_ix. rewrite cell3_ix. ring. Qed.
Lemma cell_mat_at V ex ey ez m : cell_mat V ex ey ez m -> mat_at V (ix3 V (ex, ey, ez)) = m.
Proof.
  intros (t & Et & En). rewrite cell3_ix in Et. unfold mat_at. rewrite Et. destruct (Z.eqb_spec t 0) as [->|Nt].
  - now rewrite En.
  - replace (match t with 0%Z => 0%nat | _ => 1%nat end) with 1%nat by (destruct t; [lia|reflexivity|reflexivity]). now rewrite En.
Qed.
Lemma cell_mat_ex V ex ey ez : sane V -> v_dim V = 3%Z -> is_cell3 V ex ey ez -> cell_mat V ex ey ez (mat_at V (ix3 V (ex, ey, ez))).
Proof.
  intros S D Hc. assert (He : In (ex, ey, ez) (els3 V)) by now apply in_els3. pose proof (ix3_range V _ D He) as Hr.
  destruct (sa_etype V S _ Hr) as (t & Et). exists t. rewrite cell3_ix. split; [exact Et|]. unfold mat_at. rewrite Et.
  destruct (sa_mats V S 0%nat) as (m0 & b0 & E0 & P0); [lia|].
  destruct (sa_mats V S 1%nat) as (m1 & b1 & E1 & P1); [lia|]. destruct (Z.eqb_spec t 0) as [->|Nt].
  - now rewrite E0.
  - replace (match t with 0%Z => 0%nat | _ => 1%nat end) with 1%nat by (destruct t; [lia|reflexivity|reflexivity]). now rewrite E1.
Qed.

(** what get_stress3D does at a Gauss point *)
Lemma point_step V vold vnew ex ey ez g eps m : body3 V -> vars_ok V vold vnew -> is_cell3 V ex ey ez -> (0 <= g < 8)%Z ->
  cell_mat V ex ey ez m -> m_plast m = Some true ->
  let p := plastic_step m eps (ltab 6 (fun i => val vold (var3 V ex ey ez g i))) (val vold (var3 V ex ey ez g 6)) in
  exists vn, get_stress3D V vold vnew ex ey ez g eps = Ok (ps_nl p, ps_stress p, vn) /\ alen vn = alen vnew /\
    (forall i, (0 <= i < 6)%Z -> aget vn (var3 V ex ey ez g i) = Some (lget (ps_eps_p p) i)) /\
    aget vn (var3 V ex ey ez g 6) = Some (ps_alpha p) /\
    (forall j, (forall i, (0 <= i < 7)%Z -> j <> var3 V ex ey ez g i) -> aget vn j = aget vnew j).
Proof.
  intros (S & G & D) W Hc Hg Hm Pl p. assert (He : In (ex, ey, ez) (els3 V)) by now apply in_els3.
  pose proof (ix3_range V _ D He) as Hr.
  assert (Ep : plastic_at V (ix3 V (ex, ey, ez)) = true) by (unfold plastic_at; now rewrite (cell_mat_at V ex ey ez m Hm), Pl).
  rewrite (stress3_ok V (val vold) (val vold)) by (assumption || exact (vars_old _ _ _ W)).
  set (l := st3 V (val vold) (ex, ey, ez) g eps).
  assert (Hl : forall j x, In (j, x) l <-> exists i, (0 <= i < 7)%Z /\ j = intvar_ix (ix3 V (ex, ey, ez)) g i /\ x = newv V (val vold) (ex, ey, ez) g eps i).
  { intros j x. unfold l, st3. rewrite Ep, in_map_iff. split.
    - intros (i & [= <- <-] & Hi). apply in_zrange in Hi. eauto.
    - intros (i & Hi & -> & ->). exists i. split; [reflexivity|now apply in_zrange]. }
  destruct (run_stores_ok l vnew) as (vn & E & L & Q).
  { intros j x H. apply Hl in H. destruct H as (i & Hi & -> & _). rewrite (proj2 W). unfold intvar_ix. lia. }
  assert (Es : step3 V (val vold) (ex, ey, ez) g eps = p).
  { unfold step3, p. rewrite (cell_mat_at V ex ey ez m Hm), var3_ix. f_equal. unfold ltab. apply map_ext. intros i. now rewrite var3_ix. }
  assert (Nv : forall i, (0 <= i < 7)%Z -> aget vn (var3 V ex ey ez g i) = Some (newv V (val vold) (ex, ey, ez) g eps i)).
  { intros i Hi. rewrite Q, var3_ix, (last_write_unique l _ (newv V (val vold) (ex, ey, ez) g eps i)); [reflexivity| |].
    - apply Hl. eauto.
    - intros x H. apply Hl in H. destruct H as (i' & Hi' & Ei & ->). unfold intvar_ix in Ei. replace i' with i by lia. reflexivity. }
  exists vn. split; [|split; [exact L|split; [|split]]].
  - unfold nl3, sig3. rewrite Ep, Es, E. reflexivity.
  - intros i Hi. rewrite Nv by lia. unfold newv. replace (i =? 6)%Z with false by lia. now rewrite Es.
  - rewrite Nv by lia. unfold newv. cbn [Z.eqb Pos.eqb]. now rewrite Es.
  - intros j Hj. rewrite Q, last_write_none; [reflexivity|]. intros x H. apply Hl in H. destruct H as (i & Hi & -> & _). apply (Hj i Hi). now rewrite var3_ix.
Qed.

Lemma step_exists V vold vnew ex ey ez g eps m : body3 V -> vars_ok V vold vnew -> is_cell3 V ex ey ez -> (0 <= g < 8)%Z ->
  cell_mat V ex ey ez m -> m_plast m = Some true ->
  exists nl s ep al ep' al' vn, step_at V vold vnew ex ey ez g m eps nl s ep al ep' al' vn.
Proof.
  intros BD W Hc Hg Hm Pl. destruct (point_step V vold vnew ex ey ez g eps m BD W Hc Hg Hm Pl) as (vn & E & L & H1 & H2 & _).
  set (p := plastic_step _ _ _ _) in *. pose proof BD as (S & G & D).
  assert (He : In (ex, ey, ez) (els3 V)) by now apply in_els3. pose proof (ix3_range V _ D He) as Hr.
  assert (Ep : plastic_at V (ix3 V (ex, ey, ez)) = true) by (unfold plastic_at; now rewrite (cell_mat_at V ex ey ez m Hm), Pl).
  assert (Ho : forall i, (0 <= i < 7)%Z -> aget vold (var3 V ex ey ez g i) = Some (val vold (var3 V ex ey ez g i))).
  { intros i Hi. rewrite var3_ix. exact (vars_old _ _ _ W _ g i Hr Hg Hi Ep). }
  exists (ps_nl p), (lget (ps_stress p)), (fun i => val vold (var3 V ex ey ez g i)), (val vold (var3 V ex ey ez g 6)), (lget (ps_eps_p p)), (ps_alpha p), vn.
  repeat (split; [first [assumption | (intros; apply Ho; lia) | (apply Ho; lia) | (exists (ps_stress p); split; [exact E|auto])]|]). exact H2.
Qed.

Lemma mises_yieldf m s al (f : Z -> R) : (forall i, (0 <= i < 6)%Z -> lget s i = f i) -> yieldf m s al = mises m f al.
Proof.
  intros H. unfold yieldf, mises. f_equal. f_equal. unfold frob2, contract6, sdev, dev6, tr, trace6. rewrite !H by lia.
  cbn [Z.ltb Z.compare Pos.compare Pos.compare_cont]. ring.
Qed.

(** the step in terms of plastic_step *)
Lemma step_plastic V vold vnew ex ey ez g m eps nl s ep al ep' al' vn : step_at V vold vnew ex ey ez g m eps nl s ep al ep' al' vn ->
  let p := plastic_step m eps (ltab 6 ep) al in nl = ps_nl p /\ (forall i, (0 <= i < 6)%Z -> s i = lget (ps_stress p) i) /\
   (forall i, (0 <= i < 6)%Z -> ep' i = lget (ps_eps_p p) i) /\ al' = ps_alpha p.
Proof.
  intros (BD & W & Hc & Hg & Hm & Pl & H1 & H2 & (l & E & Hl) & H3 & H4) p.
  destruct (point_step V vold vnew ex ey ez g eps m BD W Hc Hg Hm Pl) as (vn1 & E1 & _ & Q1 & Q2 & _).
  assert (Ep : plastic_step m eps (ltab 6 (fun i => val vold (var3 V ex ey ez g i))) (val vold (var3 V ex ey ez g 6)) = p).
  { unfold p. f_equal; [|unfold val; now rewrite H2]. unfold ltab. apply map_ext_in. intros i Hi. apply in_zrange in Hi. unfold val. now rewrite H1. }
  rewrite Ep in *. rewrite E in E1. injection E1 as -> -> <-. split; [reflexivity|]. split; [|split].
  - intros i Hi. now rewrite Hl.
  - intros i Hi. specialize (Q1 i Hi). rewrite H3 in Q1 by assumption. now injection Q1.
  - rewrite H4 in Q2. now injection Q2.
Qed.
Lemma ltab6 (f : Z -> R) i : (0 <= i < 6)%Z -> lget (ltab 6 f) i = f i.
Proof. intros. now rewrite lget_ltab. Qed.

(** ** C33 *)
Theorem plastic_point V vold vnew ex ey ez g m eps nl s ep al ep' al' vn :
  step_at V vold vnew ex ey ez g m eps nl s ep al ep' al' vn -> 0 < m_mu m -> 0 <= m_Ka m -> 0 <= m_Sy m + m_Ka m * al ->
  mises m s al' <= 0 /\ al <= al' /\ (al' = al <-> nl = false) /\ (nl = false -> forall i, (0 <= i < 6)%Z -> ep' i = ep i) /\
  trace6 ep' = trace6 ep /\ 0 <= contract6 s (fun i => ep' i - ep i) /\ 0 <= m_Sy m + m_Ka m * al'.
Proof.
  intros St Hmu HK Hy. destruct (step_plastic _ _ _ _ _ _ _ _ _ _ _ _ _ _ _ _ St) as (-> & Hs & He & ->).
  set (p := plastic_step m eps (ltab 6 ep) al) in *.
  pose proof (alpha_mono m eps (ltab 6 ep) al Hmu) as (A1 & A2). fold p in A1, A2.
  split; [|split; [|split; [|split; [|split; [|split]]]]].
  - rewrite <- (mises_yieldf m (ps_stress p) (ps_alpha p) s) by (intros; symmetry; auto). now apply yield_new.
  - exact A1.
  - exact A2.
  - intros N i Hi. rewrite He by assumption. destruct (no_flow m eps (ltab 6 ep) al Hmu N) as (_ & X & _). fold p in X. rewrite X by assumption. now apply ltab6.
  - pose proof (eps_p_tr m eps (ltab 6 ep) al Hmu) as T. fold p in T. unfold tr in T. unfold trace6. rewrite !He by lia. rewrite !ltab6 in T by lia. exact T.
  - pose proof (dissipation m eps (ltab 6 ep) al Hmu Hy) as T. fold p in T. unfold tdot in T. unfold contract6. rewrite !Hs, !He by lia. rewrite !ltab6 in T by lia. exact T.
  - nra.
Qed.

(** ** C34 *)
Theorem surface_point V vold vnew ex ey ez g m eps s ep al ep' al' vn :
  step_at V vold vnew ex ey ez g m eps true s ep al ep' al' vn -> 0 < m_mu m -> 0 <= m_Ka m -> 0 <= m_Sy m + m_Ka m * al ->
  (m_Ka m = 0 -> mises m s al' = 0) /\ (0 < m_Ka m -> mises m s al' < 0) /\ mises m s al = 0.
Proof.
  intros St Hmu HK Hy. destruct (step_plastic _ _ _ _ _ _ _ _ _ _ _ _ _ _ _ _ St) as (E & Hs & He & ->). symmetry in E.
  set (p := plastic_step m eps (ltab 6 ep) al) in *.
  rewrite <- !(mises_yieldf m (ps_stress p) _ s) by (intros; symmetry; auto).
  destruct (flow_surface m eps (ltab 6 ep) al Hmu HK Hy E) as (F1 & F2). fold p in F1, F2.
  destruct (yield_old m eps (ltab 6 ep) al Hmu Hy) as (_ & F3). fold p in F3. split; [exact F1|]. split; [exact F2|]. now apply F3.
Qed.

(** ** C35 *)
Lemma elastic_hooke m eps ep i : (0 <= i < 6)%Z -> lget (elastic m eps ep) i = hooke m (fun j => lget eps j - lget ep j) i.
Proof. intros Hi. rewrite elastic_entry by assumption. unfold hooke, tr. destruct (i <? 3)%Z; ring. Qed.
Lemma hooke_ext m f h i : (0 <= i < 6)%Z -> (forall j, (0 <= j < 6)%Z -> f j = h j) -> hooke m f i = hooke m h i.
Proof. intros Hi H. unfold hooke. now rewrite !H by lia. Qed.
Theorem law_point V vold vnew ex ey ez g m eps nl s ep al ep' al' vn :
  step_at V vold vnew ex ey ez g m eps nl s ep al ep' al' vn -> admissible m -> trace6 ep = 0 ->
  (forall i, (0 <= i < 6)%Z -> s i = hooke m (fun j => lget eps j - ep' j) i - if (i <? 3)%Z then 0 else m_mu m * (ep' i - ep i)) /\
  (nl = false -> forall i, (0 <= i < 6)%Z -> s i = hooke m (fun j => lget eps j - ep j) i).
Proof.
  intros St A T0. destruct (step_plastic _ _ _ _ _ _ _ _ _ _ _ _ _ _ _ _ St) as (E & Hs & He & ->).
  set (p := plastic_step m eps (ltab 6 ep) al) in *. pose proof (adm_mu m A) as Hmu. pose proof (adm_bulk m A) as Hk. symmetry in Hk.
  assert (T : tr (ltab 6 ep) = 0) by (unfold tr; rewrite !ltab6 by lia; exact T0). split.
  - intros i Hi. rewrite Hs by assumption. unfold p. rewrite (stress_law m eps (ltab 6 ep) al Hmu Hk T i Hi). fold p.
    rewrite elastic_hooke by assumption. rewrite He, ltab6 by assumption. f_equal. apply hooke_ext; [exact Hi|]. intros j Hj. now rewrite He.
  - intros N i Hi. rewrite Hs by assumption. rewrite E in N. unfold p. rewrite (no_flow_linear m eps (ltab 6 ep) al Hmu Hk T N i Hi), elastic_hooke by assumption.
    apply hooke_ext; [exact Hi|]. intros j Hj. now rewrite ltab6.
Qed.
Lemma step_ext m eps e1 e2 al : (forall i, (0 <= i < 6)%Z -> lget e1 i = lget e2 i) ->
  plastic_step m eps e1 al = plastic_step m eps e2 al.
Proof.
  intros H. unfold plastic_step.
  assert (D : dev e1 = dev e2) by (unfold dev, ltab; apply map_ext_in; intros i Hi; apply in_zrange in Hi; now rewrite !H by lia).
  rewrite D. match goal with |- context [ltab 6 (lget e1)] => assert (L1 : ltab 6 (lget e1) = ltab 6 (lget e2)) by (unfold ltab; apply map_ext_in; intros i Hi; apply in_zrange in Hi; now rewrite H) end.
  rewrite L1. cbv zeta. f_equal. match goal with |- (if ?b then _ else _) = _ => destruct b end; [|reflexivity].
  unfold ltab at 1 5. apply map_ext_in. intros i Hi. apply in_zrange in Hi. now rewrite H.
Qed.
Theorem idempotent_point V vold vnew vnew2 ex ey ez g m eps nl s ep al ep' al' vn nl2 s2 ep2 al2 vn2 :
  step_at V vold vnew ex ey ez g m eps nl s ep al ep' al' vn -> step_at V vn vnew2 ex ey ez g m eps nl2 s2 ep' al' ep2 al2 vn2 ->
  admissible m -> 0 <= m_Ka m -> 0 <= m_Sy m + m_Ka m * al -> trace6 ep = 0 -> (forall i, (3 <= i < 6)%Z -> lget eps i = ep i) ->
  nl2 = false /\ al2 = al' /\ forall i, (0 <= i < 6)%Z -> s2 i = s i /\ ep2 i = ep' i.
Proof.
  intros St St2 A HK Hy T0 Hsh. destruct (step_plastic _ _ _ _ _ _ _ _ _ _ _ _ _ _ _ _ St) as (E & Hs & He & Ea).
  destruct (step_plastic _ _ _ _ _ _ _ _ _ _ _ _ _ _ _ _ St2) as (E2 & Hs2 & He2 & Ea2).
  assert (T : tr (ltab 6 ep) = 0) by (unfold tr; rewrite !ltab6 by lia; exact T0).
  assert (X : forall i, (3 <= i < 6)%Z -> lget eps i = lget (ltab 6 ep) i) by (intros i Hi; rewrite ltab6 by lia; auto).
  destruct (elastic_partial m eps (ltab 6 ep) al A HK Hy T X) as (_ & N & Al & Q).
  set (p := plastic_step m eps (ltab 6 ep) al) in *.
  assert (Eq : plastic_step m eps (ltab 6 ep') al' = plastic_step m eps (ps_eps_p p) (ps_alpha p)).
  { rewrite Ea. apply step_ext. intros i Hi. rewrite ltab6 by assumption. auto. }
  rewrite Eq in *. split; [congruence|]. split; [congruence|]. intros i Hi. destruct (Q i Hi) as (Q1 & Q2).
  rewrite Hs2, He2, Hs, He by assumption. auto.
Qed.

(** ** C36 *)
Lemma flows_nl3 V u vold vnew ex ey ez g : body3 V -> full u (ndofs V) -> vars_ok V vold vnew -> is_cell3 V ex ey ez -> (0 <= g < 8)%Z ->
  (flows3 V u vold vnew ex ey ez g <-> nl3 V (val vold) (ex, ey, ez) g (strain3 V (val u) (ex, ey, ez) g) = true).
Proof.
  intros (S & G & D) F W Hc Hg. assert (He : In (ex, ey, ez) (els3 V)) by now apply in_els3.
  pose proof (full_rep _ _ F) as U. rewrite (ndofs3 V D) in U.
  assert (Est : get_strain3D V u ex ey ez g = Ok (strain3 V (val u) (ex, ey, ez) g)) by now apply strain3_ok.
  assert (Esg := stress3_ok V (val u) (val vold) vold vnew ex ey ez g (strain3 V (val u) (ex, ey, ez) g) S D (vars_old _ _ _ W) He Hg).
  destruct (run_stores_ok (st3 V (val vold) (ex, ey, ez) g (strain3 V (val u) (ex, ey, ez) g)) vnew) as (vn & E & _).
  { intros j x H. rewrite (proj2 W). now apply (st3_range V (val u) (val vold)) in H. }
  rewrite E in Esg. cbn [bind] in Esg. split.
  - intros (eps & s & v' & E1 & E2). rewrite Est in E1. injection E1 as <-. rewrite Esg in E2. now injection E2.
  - intros N. exists (strain3 V (val u) (ex, ey, ez) g). do 2 eexists. split; [exact Est|]. rewrite Esg, N. reflexivity.
Qed.
Theorem flag_spec V u vold vnew b b' nl vn nrm : body3 V -> full u (ndofs V) -> vars_ok V vold vnew -> alen b = ndofs V ->
  assembly_rhs V u vold vnew b = Ok (b', nl, vn, nrm) ->
  (nl = true <-> exists ex ey ez, is_cell3 V ex ey ez /\ flows3 V u vold vnew ex ey ez 7).
Proof.
  intros BD F W Lb E. pose proof BD as (S & G & D). pose proof (full_rep _ _ F) as U. rewrite (ndofs3 V D) in U, Lb.
  destruct (rhs3_ok V (val u) (val vold) S u vold vnew b D U (vars_old _ _ _ W) (proj2 W) Lb) as (b1 & v1 & E1 & _).
  rewrite E in E1. injection E1 as _ -> _ _. rewrite existsb_exists. split.
  - intros ([[ex ey] ez] & He & N). exists ex, ey, ez. assert (Hc : is_cell3 V ex ey ez) by now apply in_els3 in He. split; [exact Hc|]. apply flows_nl3; try assumption; lia.
  - intros (ex & ey & ez & Hc & N). exists (ex, ey, ez). split; [now apply in_els3|]. apply flows_nl3 in N; try assumption; lia.
Qed.

(** ** C37 *)
Theorem writes_spec V u vold vnew : body3 V -> full u (ndofs V) -> vars_ok V vold vnew ->
  exists s vn, calc_ave_stress V u vold vnew = Ok (s, vn) /\ alen vn = alen vnew /\
    (forall ex ey ez g i m, is_cell3 V ex ey ez -> (0 <= g < 8)%Z -> (0 <= i < 7)%Z -> cell_mat V ex ey ez m ->
       (m_plast m = Some true -> exists eps nl l vp, get_strain3D V u ex ey ez g = Ok eps /\
          get_stress3D V vold vnew ex ey ez g eps = Ok (nl, l, vp) /\ aget vn (var3 V ex ey ez g i) = aget vp (var3 V ex ey ez g i)) /\
       (m_plast m = Some false -> aget vn (var3 V ex ey ez g i) = aget vnew (var3 V ex ey ez g i))) /\
    (forall vnew2, alen vnew2 = alen vnew -> exists vn2, calc_ave_stress V u vold vnew2 = Ok (s, vn2) /\
       forall ex ey ez g i m, is_cell3 V ex ey ez -> (0 <= g < 8)%Z -> (0 <= i < 7)%Z -> cell_mat V ex ey ez m -> m_plast m = Some true ->
         aget vn2 (var3 V ex ey ez g i) = aget vn (var3 V ex ey ez g i)).
Proof.
  intros BD F W. pose proof BD as (S & G & D). pose proof (full_rep _ _ F) as U. rewrite (ndofs3 V D) in U.
  destruct (ave_stress3_ok V (val u) (val vold) S u vold vnew D U (vars_old _ _ _ W) (proj2 W)) as (vn & E & Ev).
  destruct (visit_ok V (val u) (val vold) vnew D (proj2 W)) as (vn' & Ev' & L & Q). rewrite Ev in Ev'. injection Ev' as <-.
  exists (ave3 V (aux3 V (val u) (val vold))), vn. split; [exact E|]. split; [rewrite L; symmetry; apply W|]. split.
  - intros ex ey ez g i m Hc Hg Hi Hm. assert (He : In (ex, ey, ez) (els3 V)) by now apply in_els3.
    specialize (Q (ex, ey, ez) g i He Hg Hi). rewrite <- var3_ix in Q. split; intros Pl.
    + set (eps := strain3 V (val u) (ex, ey, ez) g).
      destruct (point_step V vold vnew ex ey ez g eps m BD W Hc Hg Hm Pl) as (vp & E1 & _ & Q1 & Q2 & _).
      exists eps. do 2 eexists. exists vp. split; [now apply strain3_ok|]. split; [exact E1|].
      rewrite Q. unfold plastic_at. rewrite (cell_mat_at V ex ey ez m Hm), Pl.
      assert (Es : step3 V (val vold) (ex, ey, ez) g eps = plastic_step m eps (ltab 6 (fun i => val vold (var3 V ex ey ez g i))) (val vold (var3 V ex ey ez g 6))).
      { unfold step3. rewrite (cell_mat_at V ex ey ez m Hm), var3_ix. f_equal. unfold ltab. apply map_ext. intros k. now rewrite var3_ix. }
      unfold newv. fold eps. rewrite Es. destruct (Z.eqb_spec i 6) as [->|Ni]; [now rewrite Q2|]. rewrite Q1 by lia. reflexivity.
    + rewrite Q. unfold plastic_at. now rewrite (cell_mat_at V ex ey ez m Hm), Pl.
  - intros vnew2 L2. assert (L2' : alen vnew2 = (ncells V * 56)%Z) by (rewrite L2; apply W).
    destruct (ave_stress3_ok V (val u) (val vold) S u vold vnew2 D U (vars_old _ _ _ W) L2') as (vn2 & E2 & Ev2).
    destruct (visit_ok V (val u) (val vold) vnew2 D L2') as (vn2' & Ev2' & _ & Q2). rewrite Ev2 in Ev2'. injection Ev2' as <-.
    exists vn2. split; [exact E2|]. intros ex ey ez g i m Hc Hg Hi Hm Pl. assert (He : In (ex, ey, ez) (els3 V)) by now apply in_els3.
    rewrite var3_ix, Q, Q2 by assumption. unfold plastic_at. now rewrite (cell_mat_at V ex ey ez m Hm), Pl.
Qed.

(** ** Every step is taken by some object; counterexamples *)
Definition one (m : material R) : env R := box 3 2 2 2 1 1 1 m m.
Lemma one_body m : m_plast m = Some true -> body3 (one m).
Proof.
  intros P. assert (GB : goodbox 3 2 2 2) by (unfold goodbox; lia). split; [|split; [|reflexivity]].
  - exact (box_sane 3 2 2 2 1 1 1 m m GB true true P P).
  - apply (box_geom 3 2 2 2 1 1 1 m m GB); lra.
Qed.
Lemma one_cells m : ncells (one m) = 1%Z. Proof. reflexivity. Qed.
Lemma one_mat m : cell_mat (one m) 0 0 0 m.
Proof.
  exists 0%Z. split; [|reflexivity]. change (cell3 (one m) 0 0 0) with 0%Z. unfold one, box; cbn [v_etype].
  match goal with |- aget (fun_arr ?n _) _ = _ => assert (H : (0 <= 0 < n)%Z) by (cbn; lia); exact (proj2 (fun_arr_rep n (fun e => e mod 2)%Z) 0%Z H) end.
Qed.
Lemma full_vars m vold vnew : full vold 56 -> alen vnew = 56%Z -> vars_ok (one m) vold vnew.
Proof. intros (L & F) L2. split; [|now rewrite one_cells]. intros e g i He Hg Hi _. rewrite one_cells in He. apply F. lia. Qed.
Lemma realize m eps vold vnew : m_plast m = Some true -> full vold 56 -> full vnew 56 ->
  let p := plastic_step m eps (ltab 6 (val vold)) (val vold 6) in
  exists vn, full vn 56 /\ step_at (one m) vold vnew 0 0 0 0 m eps (ps_nl p) (lget (ps_stress p)) (val vold) (val vold 6) (lget (ps_eps_p p)) (ps_alpha p) vn /\
   (forall i, (0 <= i < 6)%Z -> val vn i = lget (ps_eps_p p) i) /\ val vn 6 = ps_alpha p.
Proof.
  intros Pl Fo Fn p. assert (Ho : forall i, (0 <= i < 56)%Z -> aget vold i = Some (val vold i)).
  { intros i Hi. destruct (proj2 Fo i Hi) as (x & E). unfold val. now rewrite E. }
  assert (Hc : is_cell3 (one m) 0 0 0) by (unfold is_cell3, one, box; cbn [v_nx v_ny v_nz]; lia).
  assert (W : vars_ok (one m) vold vnew) by (apply full_vars; [exact Fo|apply Fn]).
  destruct (point_step (one m) vold vnew 0 0 0 0 eps m (one_body m Pl) W Hc ltac:(lia) (one_mat m) Pl) as (vn & E & L & H1 & H2 & H3).
  assert (Xv : forall i, var3 (one m) 0 0 0 0 i = i) by (intros i; unfold var3, cell3; cbn; lia).
  assert (Ep : plastic_step m eps (ltab 6 (fun i => val vold (var3 (one m) 0 0 0 0 i))) (val vold (var3 (one m) 0 0 0 0 6)) = p).
  { unfold p. rewrite Xv. f_equal. }
  rewrite Ep in *. exists vn. split; [|split; [|split]].
  - split; [rewrite L; apply Fn|]. intros i Hi. destruct (Z_lt_dec i 6) as [Li|Li]; [specialize (H1 i ltac:(lia)); rewrite Xv in H1; eauto|].
    destruct (Z.eq_dec i 6) as [->|Ni]; [rewrite Xv in H2; eauto|].
    rewrite H3; [apply Fn; lia|]. intros k Hk. rewrite Xv. lia.
  - split; [now apply one_body|]. split; [exact W|]. split; [exact Hc|]. split; [lia|]. split; [apply one_mat|]. split; [exact Pl|].
    split; [intros i Hi; rewrite Xv; apply Ho; lia|]. split; [rewrite Xv; apply Ho; lia|]. split; [eauto|]. split; [exact H1|exact H2].
  - intros i Hi. specialize (H1 i Hi). rewrite Xv in H1. unfold val. now rewrite H1.
  - rewrite Xv in H2. unfold val. now rewrite H2.
Qed.
Definition zero56 : arr R := fun_arr 56 (fun _ => 0).
Lemma zero56_full : full zero56 56. Proof. exact (rep_full _ _ _ (fun_arr_rep 56 (fun _ => 0))). Qed.
Lemma zero56_val i : (0 <= i < 56)%Z -> val zero56 i = 0. Proof. intros Hi. exact (rep_val _ _ _ _ (fun_arr_rep 56 (fun _ => 0)) Hi). Qed.
Lemma z6_get i : (0 <= i < 6)%Z -> lget z6 i = 0.
Proof. intros Hi. unfold z6. rewrite shear_get by assumption. now destruct (i =? 3)%Z. Qed.
Lemma zero_step Ka : plastic_step (mat1 Ka 0) (shear 2) (ltab 6 (val zero56)) (val zero56 6) = plastic_step (mat1 Ka 0) (shear 2) z6 0.
Proof. rewrite zero56_val by lia. apply step_ext. intros i Hi. rewrite ltab6, z6_get, zero56_val by lia. reflexivity. Qed.

Theorem surface_point_refuted : exists V vold vnew ex ey ez g m eps s ep al ep' al' vn,
  step_at V vold vnew ex ey ez g m eps true s ep al ep' al' vn /\ admissible m /\ 0 <= m_Ka m /\ 0 <= m_Sy m + m_Ka m * al /\ mises m s al' <> 0.
Proof.
  destruct (realize (mat1 1 0) (shear 2) zero56 zero56 eq_refl zero56_full zero56_full) as (vn & _ & St & _).
  rewrite zero_step in St. destruct (shear_flow 1) as (E & _). rewrite E in St.
  do 15 eexists. split; [exact St|]. assert (A : admissible (mat1 1 0)) by (apply elas_adm; lra).
  assert (K : 0 <= m_Sy (mat1 1 0) + m_Ka (mat1 1 0) * val zero56 6) by (rewrite zero56_val by lia; cbn; lra).
  split; [exact A|]. split; [cbn; lra|]. split; [exact K|].
  destruct (surface_point _ _ _ _ _ _ _ _ _ _ _ _ _ _ _ St (adm_mu _ A)) as (_ & H & _); [cbn; lra|exact K|].
  apply Rlt_not_eq. apply H. cbn. lra.
Qed.
Theorem law_point_refuted : exists V vold vnew vnew2 ex ey ez g m eps nl s ep al ep' al' vn nl2 s2 ep2 al2 vn2,
  step_at V vold vnew ex ey ez g m eps nl s ep al ep' al' vn /\ step_at V vn vnew2 ex ey ez g m eps nl2 s2 ep' al' ep2 al2 vn2 /\
  admissible m /\ 0 <= m_Ka m /\ 0 <= m_Sy m + m_Ka m * al /\ trace6 ep = 0 /\
  s 3%Z <> hooke m (fun j => lget eps j - ep' j) 3 /\ s2 3%Z <> s 3%Z.
Proof.
  destruct (realize (mat1 1 0) (shear 2) zero56 zero56 eq_refl zero56_full zero56_full) as (vn & Fn & St & V1 & V2).
  rewrite zero_step in St, V1, V2. set (p := plastic_step (mat1 1 0) (shear 2) z6 0) in *.
  destruct (realize (mat1 1 0) (shear 2) vn zero56 eq_refl Fn zero56_full) as (vn2 & _ & St2 & _).
  assert (E2 : plastic_step (mat1 1 0) (shear 2) (ltab 6 (val vn)) (val vn 6) = plastic_step (mat1 1 0) (shear 2) (ps_eps_p p) (ps_alpha p)).
  { rewrite V2. apply step_ext. intros i Hi. rewrite ltab6 by assumption. auto. }
  rewrite E2 in St2.
  assert (St2' : step_at (one (mat1 1 0)) vn zero56 0 0 0 0 (mat1 1 0) (shear 2) (ps_nl (plastic_step (mat1 1 0) (shear 2) (ps_eps_p p) (ps_alpha p)))
     (lget (ps_stress (plastic_step (mat1 1 0) (shear 2) (ps_eps_p p) (ps_alpha p)))) (lget (ps_eps_p p)) (ps_alpha p)
     (lget (ps_eps_p (plastic_step (mat1 1 0) (shear 2) (ps_eps_p p) (ps_alpha p)))) (ps_alpha (plastic_step (mat1 1 0) (shear 2) (ps_eps_p p) (ps_alpha p))) vn2).
  { destruct St2 as (Q1 & Q2 & Q3 & Q4 & Q5 & Q6 & Q7 & Q8 & Q9). rewrite V2 in Q8.
    refine (conj Q1 (conj Q2 (conj Q3 (conj Q4 (conj Q5 (conj Q6 (conj _ (conj Q8 Q9)))))))). intros i Hi. rewrite <- V1 by assumption. now apply Q7. }
  do 22 eexists. split; [exact St|]. split; [exact St2'|]. assert (A : admissible (mat1 1 0)) by (apply elas_adm; lra).
  split; [exact A|]. split; [cbn; lra|]. split; [rewrite zero56_val by lia; cbn; lra|].
  split; [unfold trace6; rewrite !zero56_val by lia; lra|].
  destruct (shear_flow 1) as (E & P3 & S3). fold p in E, P3, S3. split.
  - rewrite S3. unfold hooke. cbn [Z.ltb Z.compare Pos.compare Pos.compare_cont]. rewrite P3, mat1_mu, shear_get by lia. cbn [Z.eqb Pos.eqb]. lra.
  - exact shear_again.
Qed.
Theorem flag_point_refuted : exists V u vold vnew b b' vn nrm ex ey ez g, body3 V /\ adm V /\ full u (ndofs V) /\ vars_ok V vold vnew /\ alen b = ndofs V /\
  assembly_rhs V u vold vnew b = Ok (b', false, vn, nrm) /\ is_cell3 V ex ey ez /\ (0 <= g < 8)%Z /\ flows3 V u vold vnew ex ey ez g.
Proof.
  destruct flag_refuted as (b' & vn & nrm & E & eps & sig & vn' & E1 & E2).
  exists cube, (fun_arr 24 saddle), (const_arr 56 0), (const_arr 56 0), (const_arr 24 0), b', vn, nrm, 0%Z, 0%Z, 0%Z, 0%Z.
  assert (GB : goodbox 3 2 2 2) by (unfold goodbox; lia).
  split; [split; [exact cube_sane|split; [|reflexivity]]; apply (box_geom 3 2 2 2 1 1 1 (mat1 0 1) (mat1 0 1) GB); lra|].
  split; [apply (box_adm 3 2 2 2 1 1 1 (mat1 0 1) (mat1 0 1)); apply elas_adm; lra|].
  split; [exact (rep_full _ _ _ (fun_arr_rep 24 saddle))|].
  split; [split; [|reflexivity]; intros e g i He Hg Hi _; exists 0; apply (const_arr_rep 56 0); unfold ncells, nelem in He; cbn in He; lia|].
  split; [reflexivity|]. split; [exact E|]. split; [unfold is_cell3; cbn; lia|]. split; [lia|]. exists eps, sig, vn'. split; assumption.
Qed.
