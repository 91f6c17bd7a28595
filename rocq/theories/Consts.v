(** The elastic constants computed by the constructor, and the two stress laws they feed. *)
From Coq Require Import Reals Lra ZifyBool.
From Verif Require Import Base Scalar Grid EllSpec EllModel AssemblyModel AsmPure AsmBnd AsmRun FemGen FemPd AsmEx PlastRef PlastProps AsmSpec AsmProps AsmPoint AsmCases MicroModel NewtonBase Build OneCell.
Open Scope Z_scope.
Open Scope R_scope.

Lemma built_constants mt ps i m : make_material mt ps i = Ok m -> exists E nu, arg ps (i * 10) = Ok E /\ arg ps (i * 10 + 1) = Ok nu /\ m_E m = E /\ m_nu m = nu /\
  m_k m = E / (3 * (1 - 2 * nu)) /\ m_mu m = E / (2 * (1 + nu)) /\ m_lambda m = nu * E / ((1 + nu) * (1 - 2 * nu)) /\
  exists t, arg mt i = Ok t /\ (m_plast m = Some true <-> t = 1%Z) /\ (m_plast m = Some false <-> (t = 0 \/ t = 2)%Z).
Proof.
  unfold make_material. intros H. destruct (arg ps (i * 10)) as [E|]; cbn [bind] in H; [|discriminate]. destruct (arg ps (i * 10 + 1)) as [nu|]; cbn [bind] in H; [|discriminate].
  destruct (arg ps (i * 10 + 2)) as [Sy|]; cbn [bind] in H; [|discriminate]. destruct (arg ps (i * 10 + 3)) as [Ka|]; cbn [bind] in H; [|discriminate].
  destruct (arg mt i) as [t|]; cbn [bind] in H; [|discriminate]. exists E, nu. split; [reflexivity|]. split; [reflexivity|].
  destruct t as [|[[p|p|]|[p|p|]|]|p]; injection H as <-; cbn [m_E m_nu m_k m_mu m_lambda m_plast]; (repeat (split; [reflexivity|]));
    eexists; (split; [reflexivity|]); (split; split; intros X; try discriminate; try lia; auto).
Qed.

(** C32: bulk modulus, positivity, and the inverse formulas of a uniaxial test *)
Theorem constants mt ps i m E nu : make_material mt ps i = Ok m -> arg ps (i * 10) = Ok E -> arg ps (i * 10 + 1) = Ok nu -> 0 < E -> -1 < nu < 1 / 2 ->
  m_k m = m_lambda m + 2 * m_mu m / 3 /\ 0 < m_k m /\ 0 < m_mu m /\ (0 < nu -> 0 < m_lambda m) /\
  E = m_mu m * (3 * m_lambda m + 2 * m_mu m) / (m_lambda m + m_mu m) /\ nu = m_lambda m / (2 * (m_lambda m + m_mu m)) /\ admissible m.
Proof.
  intros H HE Hn PE Pn. destruct (built_constants mt ps i m H) as (E' & nu' & XE & Xn & ME & Mn & K & Mu & La & _).
  rewrite HE in XE. rewrite Hn in Xn. injection XE as <-. injection Xn as <-.
  assert (P1 : 0 < 1 + nu) by lra. assert (P2 : 0 < 1 - 2 * nu) by lra. assert (P3 : 0 < (1 + nu) * (1 - 2 * nu)) by now apply Rmult_lt_0_compat.
  rewrite K, Mu, La. split; [field; lra|]. split; [apply Rdiv_lt_0_compat; lra|]. split; [apply Rdiv_lt_0_compat; lra|].
  split; [intros P; apply Rdiv_lt_0_compat; [now apply Rmult_lt_0_compat|exact P3]|].
  assert (S : nu * E / ((1 + nu) * (1 - 2 * nu)) + E / (2 * (1 + nu)) = E / (2 * (1 + nu) * (1 - 2 * nu))) by (field; lra).
  rewrite S. split; [field; repeat split; lra|]. split; [field; repeat split; lra|]. constructor; rewrite ?ME, ?Mn; assumption || lra.
Qed.
(** a linear Gauss point *)
Lemma linear_stress V vold vnew ex ey ez g m eps : body3 V -> is_cell3 V ex ey ez -> cell_mat V ex ey ez m -> m_plast m = Some false ->
  exists l, get_stress3D V vold vnew ex ey ez g eps = Ok (false, l, vnew) /\ forall i, (0 <= i < 6)%Z -> lget l i = hooke m (lget eps) i.
Proof.
  intros (S & G & D) Hc Hm Pl. assert (He : In (ex, ey, ez) (els3 V)) by now apply in_els3. pose proof (ix3_range V _ D He) as Hr.
  unfold get_stress3D. change (glo_elem3D (v_nx V) (v_ny V) ex ey ez) with (ix3 V (ex, ey, ez)).
  rewrite (get_material_ok V _ S Hr). cbn [bind fst snd]. unfold plastic_at. rewrite (cell_mat_at V ex ey ez m Hm), Pl. cbn [bind].
  eexists. split; [reflexivity|]. intros i Hi. unfold lin_stress3, hooke. rewrite lget_ltab by exact Hi. cbn [oadd omul ofZ ROps]. destruct (i <? 3)%Z; ring.
Qed.
(** a plastic Gauss point without plastic strain that does not flow gives the stress of a linear one *)
Theorem same_law V vold vnew ex ey ez g m eps s ep al ep' al' vn V' vold' vnew' ex' ey' ez' g' m' : 
  step_at V vold vnew ex ey ez g m eps false s ep al ep' al' vn -> admissible m -> (forall i, (0 <= i < 6)%Z -> ep i = 0) ->
  body3 V' -> is_cell3 V' ex' ey' ez' -> cell_mat V' ex' ey' ez' m' -> m_plast m' = Some false -> admissible m' -> m_E m' = m_E m -> m_nu m' = m_nu m ->
  exists l, get_stress3D V' vold' vnew' ex' ey' ez' g' eps = Ok (false, l, vnew') /\ forall i, (0 <= i < 6)%Z -> lget l i = s i.
Proof.
  intros St A Z B Hc Hm Pl A' EE En. destruct (linear_stress V' vold' vnew' ex' ey' ez' g' m' eps B Hc Hm Pl) as (l & E & H). exists l. split; [exact E|].
  assert (Tr : trace6 ep = 0) by (unfold trace6; rewrite !Z by lia; ring).
  destruct (law_point _ _ _ _ _ _ _ _ _ _ _ _ _ _ _ _ St A Tr) as (_ & L). intros i Hi. rewrite (H i Hi), (L eq_refl i Hi). unfold hooke.
  rewrite (ad_la _ A), (ad_la _ A'), (ad_mu _ A), (ad_mu _ A'), EE, En, (Z 0%Z), (Z 1%Z), (Z 2%Z), (Z i) by lia. rewrite !Rminus_0_r. reflexivity.
Qed.

(** such a pair of Gauss points, with a shear strain that is not zero *)
Lemma quiet_pair : exists V vold vnew m eps s ep al ep' al' vn V' m', step_at V vold vnew 0 0 0 0 m eps false s ep al ep' al' vn /\ admissible m /\
  (forall i, (0 <= i < 6)%Z -> ep i = 0) /\ body3 V' /\ is_cell3 V' 0 0 0 /\ cell_mat V' 0 0 0 m' /\ m_plast m' = Some false /\ admissible m' /\ m_E m' = m_E m /\ m_nu m' = m_nu m /\
  lget eps 3 <> 0.
Proof.
  destruct (realize (mat1 0 1) (shear (1 / 2)) zero56 zero56 eq_refl zero56_full zero56_full) as (vn & _ & St & _).
  assert (P : plastic_step (mat1 0 1) (shear (1 / 2)) (ltab 6 (val zero56)) (val zero56 6) = plastic_step (mat1 0 1) (shear (1 / 2)) (shear 0) 0).
  { rewrite zero56_val by lia. apply step_ext. intros i Hi. change (shear 0) with z6. rewrite ltab6, z6_get, zero56_val by lia. reflexivity. }
  rewrite P in St. destruct (shear_elastic 0 1 (1 / 2) 0 0) as (N & _); [apply sgap_small; lra|]. rewrite N in St.
  assert (GB : goodbox 3 2 2 2) by (unfold goodbox; lia).
  set (m' := elas (m_E (mat1 0 1)) (m_nu (mat1 0 1)) 0 1 false). do 11 eexists. exists (one m'), m'. split; [exact St|]. split; [apply elas_adm; lra|].
  split; [intros i Hi; apply zero56_val; lia|]. split.
  { split; [exact (box_sane 3 2 2 2 1 1 1 m' m' GB false false eq_refl eq_refl)|]. split; [apply (box_geom 3 2 2 2 1 1 1 m' m' GB); lra|reflexivity]. }
  split; [unfold is_cell3, one, box; cbn [v_nx v_ny v_nz]; lia|]. split; [apply one_mat|]. split; [reflexivity|]. split; [apply elas_adm; cbn; lra|].
  split; [reflexivity|]. split; [reflexivity|]. rewrite shear_get by lia. cbn; lra.
Qed.
Lemma ps_material : exists mt ps m, make_material mt ps 1 = Ok m /\ arg ps 10 = Ok 210000 /\ arg ps 11 = Ok (3 / 10).
Proof. eexists [0; 1]%Z, [1; 0; 0; 0; 0; 0; 0; 0; 0; 0; 210000; 3 / 10; 250; 1], _. split; [|split]; reflexivity. Qed.
