(** The assembled stiffness of a linear structure is symmetric positive definite
    on the free degrees of freedom. *)
From Coq Require Import Reals Lra ZifyBool.
From Verif Require Import Base Scalar EllSpec EllInit Grid EllModel EllAsm EllOp EllFinal EllProps
  CgPure CgTheory CgFinal CgProps AssemblyModel AsmPure AsmBnd AsmRun AsmMat FemGen FemAve FemMat FemMat2 FemDef.
Open Scope Z_scope.
Open Scope R_scope.

(** the constants as material_t's are set up by the constructor *)
Record admissible (m : material R) : Prop := {
  ad_E : 0 < m_E m; ad_nu1 : -1 < m_nu m; ad_nu2 : m_nu m < 1 / 2;
  ad_k : m_k m = m_E m / (3 * (1 - 2 * m_nu m));
  ad_mu : m_mu m = m_E m / (2 * (1 + m_nu m));
  ad_la : m_lambda m = m_nu m * m_E m / ((1 + m_nu m) * (1 - 2 * m_nu m)) }.
(** every cell has an admissible material / no cell is plastic *)
Definition adm (V : env R) : Prop := forall e, (0 <= e < ncells V)%Z -> admissible (mat_at V e).
Definition linear {T} {O : Ops T} (V : env T) : Prop := forall e, (0 <= e < ncells V)%Z -> plastic_at V e = false.

Lemma adm_mu m : admissible m -> 0 < m_mu m.
Proof. intros A. destruct A. rewrite ad_mu0. apply Rdiv_lt_0_compat; lra. Qed.
Lemma adm_bulk m : admissible m -> m_lambda m + 2 * m_mu m / 3 = m_k m.
Proof. intros A. destruct A. rewrite ad_mu0, ad_la0, ad_k0. field. lra. Qed.
Lemma adm_k m : admissible m -> 0 < m_k m.
Proof. intros A. destruct A. rewrite ad_k0. apply Rdiv_lt_0_compat; lra. Qed.

(** ** Element matrices *)
Section Elem.
Variables (nd nv : Z) (gs : list Z) (B : Z -> Z -> Z -> R) (wg : R) (C : Z -> Z -> Z -> R) (K : Z -> Z -> R).
Hypothesis EK : forall i j, (0 <= i < nd)%Z -> (0 <= j < nd)%Z ->
  K i j = rsum gs (fun g => rsum (zrange 0 nv) (fun m => B g m i * rsum (zrange 0 nv) (fun k => C g m k * B g k j) * wg)).
Lemma elem_energy x y : rsum (zrange 0 nd) (fun i => y i * rsum (zrange 0 nd) (fun j => K i j * x j)) =
  mwork [tt] nd nv gs (fun _ i => i) B wg (fun (u : unit) g m => rsum (zrange 0 nv) (fun k => C g m k *
      mstrain nd (fun (_ : unit) i => i) B x u g k)) y.
Proof.
  rewrite <- (virtual_work [tt] nd nv nd gs (fun _ i => i) B wg) by (intros; lia).
  apply rsum_ext. intros i Hi. pose proof Hi as Hi'. apply in_zrange in Hi'. f_equal.
  unfold mforce. cbn [rsum]. rewrite Rplus_0_r. symmetry.
  rewrite (rsum_single _ _ i); [|apply NoDup_zrange|assumption|].
  - cbv beta. rewrite Z.eqb_refl. symmetry.
    pose proof (stiff_force nd nv gs (fun (_ : unit) i => i) B wg (fun _ => C) x tt i) as SF. cbv beta in SF.
    transitivity (rsum (zrange 0 nd) (fun j => rsum gs (fun g => rsum (zrange 0 nv) (fun m => B g m i * rsum (zrange 0 nv) (fun k => C g m k * B g k j) * wg)) * x j)).
    + apply rsum_ext. intros j Hj. apply in_zrange in Hj. now rewrite EK.
    + rewrite SF. reflexivity.
  - intros b _ Hb. now replace (b =? i)%Z with false by lia.
Qed.
End Elem.

Section Three.
Variable V : env R.
Hypotheses (S : sane V) (D : v_dim V = 3%Z) (G : geom V) (L : linear V) (A : adm V).
Variables uf of : Z -> R.
Let Px : 0 < v_dx V. Proof. apply (ge_px V G). Qed.
Let Py : 0 < v_dy V. Proof. apply (ge_py V G). Qed.
Let Pz : 0 < v_dz V. Proof. apply (ge_pz V G D). Qed.
Lemma wg3_pos : 0 < wg3 V.
Proof. rewrite wg3_R. repeat apply Rmult_lt_0_compat; lra. Qed.

Lemma tan3_lin e g : In e (els3 V) ->
  tan3 V uf of e g = ctan3 (m_lambda (mat_at V (ix3 V e))) (m_mu (mat_at V (ix3 V e))).
Proof. intros He. unfold tan3. now rewrite (L _ (ix3_range V e D He)). Qed.
Lemma tan3_sym e g m k : In e (els3 V) -> tan3 V uf of e g m k = tan3 V uf of e g k m.
Proof. intros He. rewrite tan3_lin by assumption. apply ctan3_sym. Qed.
Lemma tan3_quad e g x : In e (els3 V) ->
  0 <= quad 6 (tan3 V uf of e g) x /\ (quad 6 (tan3 V uf of e g) x = 0 -> forall v, (0 <= v < 6)%Z -> x v = 0).
Proof.
  intros He. rewrite tan3_lin by assumption. pose proof (A _ (ix3_range V e D He)) as Am.
  apply quad3_pos; [now apply adm_mu|]. rewrite adm_bulk by assumption. now apply adm_k.
Qed.

(** C25, C26: the element matrix of a non-plastic cell *)
Theorem elem3_sym e i j : In e (els3 V) -> (0 <= i < 24)%Z -> (0 <= j < 24)%Z ->
  lget (emat3 V uf of e) (i * 24 + j) = lget (emat3 V uf of e) (j * 24 + i).
Proof.
  intros He Hi Hj. rewrite !emat3_entry by assumption. apply (sym_entry 6 (zrange 0 8) (B3 V) (tan3 V uf of e)).
  intros. now apply tan3_sym.
Qed.
Theorem elem3_energy e x : In e (els3 V) ->
  let q := rsum (zrange 0 24) (fun i => x i * rsum (zrange 0 24) (fun j => lget (emat3 V uf of e) (i * 24 + j) * x j)) in
  0 <= q /\ (q = 0 <-> rigid3 V x).
Proof.
  intros He q.
  assert (Eq : q = rsum (zrange 0 8) (fun g => quad 6 (tan3 V uf of e g) (lstr3 V x g) * wg3 V)).
  { unfold q. rewrite (elem_energy 24 6 (zrange 0 8) (B3 V) (wg3 V) (tan3 V uf of e) (fun i j => lget (emat3 V uf of e) (i * 24 + j)))
      by (intros; now apply emat3_entry).
    pose proof (work_quad [tt] 24 6 (zrange 0 8) (fun _ i => i) (B3 V) (wg3 V) (fun _ => tan3 V uf of e) x) as WQ.
    cbv zeta in WQ. rewrite WQ. cbn [rsum]. rewrite Rplus_0_r. reflexivity. }
  pose proof wg3_pos as W.
  assert (P : forall g, In g (zrange 0 8) -> 0 <= quad 6 (tan3 V uf of e g) (lstr3 V x g) * wg3 V).
  { intros g _. apply Rmult_le_pos; [now apply tan3_quad|lra]. }
  rewrite Eq. split; [now apply rsum_nonneg|].
  rewrite <- strain_free3 by lra. split.
  - intros Z0 g v Hg Hv. pose proof (rsum_all0 _ _ P Z0 g) as Zg. cbv beta in Zg.
    specialize (Zg ltac:(now apply in_zrange)). apply Rmult_integral in Zg. destruct Zg as [Zg|Zg]; [|lra].
    now apply (tan3_quad e g (lstr3 V x g) He).
  - intros H. apply rsum_zero. intros g Hg. apply in_zrange in Hg.
    replace (quad 6 (tan3 V uf of e g) (lstr3 V x g)) with 0; [ring|]. symmetry. unfold quad. apply rsum_zero.
    intros m Hm. apply in_zrange in Hm. rewrite (H g m Hg Hm). ring.
Qed.

(** ** Fields without strain that vanish on the face x = 0 *)
Lemma free3_zero w : (forall e g v, In e (els3 V) -> In g (zrange 0 8) -> (0 <= v < 6)%Z -> str3 V w e g v = 0) ->
  (forall j k c, (0 <= j < v_ny V)%Z -> (0 <= k < v_nz V)%Z -> (0 <= c < 3)%Z -> cmp3 V w c 0 j k = 0) ->
  forall i j k c, (0 <= i < v_nx V)%Z -> (0 <= j < v_ny V)%Z -> (0 <= k < v_nz V)%Z -> (0 <= c < 3)%Z -> cmp3 V w c i j k = 0.
Proof.
  intros H F i. destruct (Z_lt_dec i 0) as [Hn|Hn]; [lia|].
  assert (Q : forall n : nat, forall j k c, (Z.of_nat n < v_nx V)%Z -> (0 <= j < v_ny V)%Z -> (0 <= k < v_nz V)%Z -> (0 <= c < 3)%Z ->
    cmp3 V w c (Z.of_nat n) j k = 0).
  2:{ intros j k c Hi. rewrite <- (Z2Nat.id i) by lia. apply Q. lia. }
  induction n as [|n IH]; intros j k c Hi Hj Hk Hc; [now apply F|].
  pose proof (sa_dim V S) as Hd. pose proof (sa_ny V S) as Hy.
  set (ex := Z.of_nat n) in *. set (ey := Z.min j (v_ny V - 2)). set (ez := Z.min k (v_nz V - 2)).
  assert (Ee : In (ex, ey, ez) (els3 V)) by (apply in_els3; unfold ex, ey, ez; lia).
  set (x := fun i => w (addr3 V (ex, ey, ez) i)).
  assert (Rg : rigid3 V x).
  { apply strain_free3; try lra. intros g v Hg Hv. apply (H (ex, ey, ez) g v Ee); [now apply in_zrange|assumption]. }
  assert (Xn : forall m c, (0 <= m < 8)%Z -> (0 <= c < 3)%Z -> x (m * 3 + c)%Z =
     cmp3 V w c (ex + cor_x m) (ey + cor_y m) (ez + cor_z m)).
  { intros m c' Hm Hc'. unfold x, cmp3. rewrite addr3_kd by assumption. reflexivity. }
  assert (X0 : forall m c, (0 <= m < 8)%Z -> cor_x m = 0%Z -> (0 <= c < 3)%Z -> x (m * 3 + c)%Z = 0).
  { intros m c' Hm Cm Hc'. rewrite Xn, Cm, Z.add_0_r by assumption.
    destruct (cor_bound m) as (_ & ? & ?); [lia|].
    apply IH; unfold ex, ey, ez; lia. }
  destruct Rg as (t0 & t1 & t2 & w0 & w1 & w2 & Rg).
  assert (N0 : t0 = 0 /\ t1 = 0 /\ t2 = 0).
  { destruct (Rg 0%Z ltac:(lia)) as (E1 & E2 & E3). pose proof (X0 0 0 ltac:(lia) eq_refl ltac:(lia))%Z as Y0.
    pose proof (X0 0 1 ltac:(lia) eq_refl ltac:(lia))%Z as Y1. pose proof (X0 0 2 ltac:(lia) eq_refl ltac:(lia))%Z as Y2.
    revert E1 E2 E3. cors. cbn [Z.mul Z.add Pos.mul Pos.add] in *. intros; repeat split; lra. }
  destruct N0 as (-> & -> & ->).
  assert (N3 : w2 = 0 /\ w0 = 0).
  { destruct (Rg 3%Z ltac:(lia)) as (E1 & E2 & E3). pose proof (X0 3 0 ltac:(lia) eq_refl ltac:(lia))%Z as Y0.
    pose proof (X0 3 2 ltac:(lia) eq_refl ltac:(lia))%Z as Y2.
    revert E1 E2 E3. cors. cbn [Z.mul Z.add Pos.mul Pos.add Pos.succ] in *. intros E1 E2 E3.
    assert (w2 * v_dy V = 0) by lra. assert (w0 * v_dy V = 0) by lra.
    split; (eapply Rmult_eq_reg_r; [|apply Rgt_not_eq; exact Py]); lra. }
  destruct N3 as (-> & ->).
  assert (N4 : w1 = 0).
  { destruct (Rg 4%Z ltac:(lia)) as (E1 & E2 & E3). pose proof (X0 4 0 ltac:(lia) eq_refl ltac:(lia))%Z as Y0.
    revert E1 E2 E3. cors. cbn [Z.mul Z.add Pos.mul Pos.add Pos.succ] in *. intros E1 E2 E3.
    assert (w1 * v_dz V = 0) by lra. eapply Rmult_eq_reg_r; [|apply Rgt_not_eq; exact Pz]; lra. }
  subst w1.
  assert (All : forall m c, (0 <= m < 8)%Z -> (0 <= c < 3)%Z -> x (m * 3 + c)%Z = 0).
  { intros m c' Hm Hc'. destruct (Rg m Hm) as (E1 & E2 & E3). pattern c'. apply case3; [exact Hc'|..].
    - rewrite Z.add_0_r, E1. ring.
    - rewrite E2. ring.
    - rewrite E3. ring. }
  (* the node (n+1, j, k) is corner (1, j-ey, k-ez) *)
  assert (Cm : exists m, (0 <= m < 8)%Z /\ cor_x m = 1%Z /\ cor_y m = (j - ey)%Z /\ cor_z m = (k - ez)%Z).
  { assert (0 <= j - ey <= 1 /\ 0 <= k - ez <= 1)%Z by (unfold ey, ez; lia).
    assert (Cy : (j - ey = 0 \/ j - ey = 1)%Z) by lia. assert (Cz : (k - ez = 0 \/ k - ez = 1)%Z) by lia.
    destruct Cy as [-> | ->], Cz as [-> | ->]; [exists 1%Z|exists 5%Z|exists 2%Z|exists 6%Z]; repeat split; lia. }
  destruct Cm as (m & Hm & Mx & My & Mz). rewrite <- (All m c Hm Hc), Xn, Mx, My, Mz by assumption.
  f_equal; unfold ex; lia.
Qed.

Lemma van_face w : van V w -> forall j k c, (0 <= j < v_ny V)%Z -> (0 <= k < v_nz V)%Z -> (0 <= c < 3)%Z -> cmp3 V w c 0 j k = 0.
Proof.
  intros Hw j k c Hj Hk Hc. pose proof (sa_nx V S). unfold cmp3. apply Hw.
  - rewrite ndofs3 by assumption. pose proof (node_range (v_nx V) (v_ny V) (v_nz V) 0 j k ltac:(lia) Hj Hk). nia.
  - apply bdof3_node; try assumption; try lia. unfold bnd3, on_bnd. tauto.
Qed.
Theorem definite3 w : van V w -> 0 <= work3 V (tsig3 V uf of w) w /\
  (work3 V (tsig3 V uf of w) w = 0 -> forall r, (0 <= r < ndofs V)%Z -> w r = 0).
Proof.
  intros Hw. pose proof wg3_pos as W.
  assert (Hq : forall e g x, In e (els3 V) -> In g (zrange 0 8) -> 0 <= quad 6 (tan3 V uf of e g) x /\
    (quad 6 (tan3 V uf of e g) x = 0 -> forall v, (0 <= v < 6)%Z -> x v = 0)) by (intros; now apply tan3_quad).
  split.
  - exact (work_nonneg (els3 V) 24 6 (zrange 0 8) (addr3 V) (B3 V) (wg3 V) (tan3 V uf of) W Hq w).
  - intros Z0. pose proof (work_zero (els3 V) 24 6 (zrange 0 8) (addr3 V) (B3 V) (wg3 V) (tan3 V uf of) W Hq w Z0) as Z1.
    intros r Hr. rewrite ndofs3 in Hr by assumption.
    destruct (dof3_surj V S D r Hr) as (i & j & k & c & Hi & Hj & Hk & Hc & -> & _).
    exact (free3_zero w Z1 (van_face w Hw) i j k c Hi Hj Hk Hc).
Qed.
Lemma rsum_ext_els (f g : Z * Z * Z -> R) : (forall e, In e (els3 V) -> f e = g e) -> rsum (els3 V) f = rsum (els3 V) g.
Proof. apply rsum_ext. Qed.
Theorem symmetric3 v w : work3 V (tsig3 V uf of w) v = work3 V (tsig3 V uf of v) w.
Proof.
  set (C := fun (e : Z * Z * Z) (g : Z) => ctan3 (m_lambda (mat_at V (ix3 V e))) (m_mu (mat_at V (ix3 V e)))).
  assert (X : forall v w, work3 V (tsig3 V uf of w) v = work3 V (fun e g m => rsum (zrange 0 6) (fun k => C e g m k * str3 V w e g k)) v).
  { intros v' w'. unfold work3, mwork. apply rsum_ext. intros e He. apply rsum_ext. intros g _. apply rsum_ext. intros m _.
    unfold tsig3. rewrite tan3_lin by assumption. reflexivity. }
  rewrite !X. apply (work_sym (els3 V) 24 6 (zrange 0 8) (addr3 V) (B3 V) (wg3 V) C). intros. apply ctan3_sym.
Qed.
End Three.

Section Two.
Variable V : env R.
Hypotheses (S : sane V) (D : v_dim V = 2%Z) (G : geom V) (A : adm V).
Let Px : 0 < v_dx V. Proof. apply (ge_px V G). Qed.
Let Py : 0 < v_dy V. Proof. apply (ge_py V G). Qed.
Lemma wg2_pos : 0 < wg2 V.
Proof. rewrite wg2_R. repeat apply Rmult_lt_0_compat; lra. Qed.
Lemma tan2_quad e x : In e (els2 V) ->
  0 <= quad 3 (tan2 V e) x /\ (quad 3 (tan2 V e) x = 0 -> forall v, (0 <= v < 3)%Z -> x v = 0).
Proof. intros He. destruct (A _ (ix2_range V e D He)). now apply quad2_pos. Qed.

Theorem elem2_sym e i j : (0 <= i < 8)%Z -> (0 <= j < 8)%Z ->
  lget (emat2 V e) (i * 8 + j) = lget (emat2 V e) (j * 8 + i).
Proof.
  intros Hi Hj. rewrite !emat2_entry by assumption. apply (sym_entry 3 (zrange 0 4) (B2 V) (fun g => tan2 V e)).
  intros. apply ctan2_sym.
Qed.
Theorem elem2_energy e x : In e (els2 V) ->
  let q := rsum (zrange 0 8) (fun i => x i * rsum (zrange 0 8) (fun j => lget (emat2 V e) (i * 8 + j) * x j)) in
  0 <= q /\ (q = 0 <-> rigid2 V x).
Proof.
  intros He q.
  assert (Eq : q = rsum (zrange 0 4) (fun g => quad 3 (tan2 V e) (lstr2 V x g) * wg2 V)).
  { unfold q. rewrite (elem_energy 8 3 (zrange 0 4) (B2 V) (wg2 V) (fun g => tan2 V e) (fun i j => lget (emat2 V e) (i * 8 + j)))
      by (intros; now apply emat2_entry).
    pose proof (work_quad [tt] 8 3 (zrange 0 4) (fun _ i => i) (B2 V) (wg2 V) (fun _ g => tan2 V e) x) as WQ.
    cbv zeta in WQ. rewrite WQ. cbn [rsum]. rewrite Rplus_0_r. reflexivity. }
  pose proof wg2_pos as W.
  assert (P : forall g, In g (zrange 0 4) -> 0 <= quad 3 (tan2 V e) (lstr2 V x g) * wg2 V).
  { intros g _. apply Rmult_le_pos; [now apply tan2_quad|lra]. }
  rewrite Eq. split; [now apply rsum_nonneg|].
  rewrite <- strain_free2 by lra. split.
  - intros Z0 g v Hg Hv. pose proof (rsum_all0 _ _ P Z0 g) as Zg. cbv beta in Zg.
    specialize (Zg ltac:(now apply in_zrange)). apply Rmult_integral in Zg. destruct Zg as [Zg|Zg]; [|lra].
    now apply (tan2_quad e (lstr2 V x g) He).
  - intros H. apply rsum_zero. intros g Hg. apply in_zrange in Hg.
    replace (quad 3 (tan2 V e) (lstr2 V x g)) with 0; [ring|]. symmetry. unfold quad. apply rsum_zero.
    intros m Hm. apply in_zrange in Hm. rewrite (H g m Hg Hm). ring.
Qed.

Lemma free2_zero w : (forall e g v, In e (els2 V) -> In g (zrange 0 4) -> (0 <= v < 3)%Z -> str2 V w e g v = 0) ->
  (forall j c, (0 <= j < v_ny V)%Z -> (0 <= c < 2)%Z -> cmp2 V w c 0 j = 0) ->
  forall i j c, (0 <= i < v_nx V)%Z -> (0 <= j < v_ny V)%Z -> (0 <= c < 2)%Z -> cmp2 V w c i j = 0.
Proof.
  intros H F i. destruct (Z_lt_dec i 0) as [Hn|Hn]; [lia|].
  assert (Q : forall n : nat, forall j c, (Z.of_nat n < v_nx V)%Z -> (0 <= j < v_ny V)%Z -> (0 <= c < 2)%Z ->
    cmp2 V w c (Z.of_nat n) j = 0).
  2:{ intros j c Hi. rewrite <- (Z2Nat.id i) by lia. apply Q. lia. }
  induction n as [|n IH]; intros j c Hi Hj Hc; [now apply F|].
  pose proof (sa_ny V S) as Hy.
  set (ex := Z.of_nat n) in *. set (ey := Z.min j (v_ny V - 2)).
  assert (Ee : In (ex, ey) (els2 V)) by (apply in_els2; unfold ex, ey; lia).
  set (x := fun i => w (addr2 V (ex, ey) i)).
  assert (Rg : rigid2 V x).
  { apply strain_free2; try lra. intros g v Hg Hv. apply (H (ex, ey) g v Ee); [now apply in_zrange|assumption]. }
  assert (Xn : forall m c, (0 <= m < 4)%Z -> (0 <= c < 2)%Z -> x (m * 2 + c)%Z =
     cmp2 V w c (ex + cor_x m) (ey + cor_y m)).
  { intros m c' Hm Hc'. unfold x, cmp2. rewrite addr2_kd by assumption. reflexivity. }
  assert (X0 : forall m c, (0 <= m < 4)%Z -> cor_x m = 0%Z -> (0 <= c < 2)%Z -> x (m * 2 + c)%Z = 0).
  { intros m c' Hm Cm Hc'. rewrite Xn, Cm, Z.add_0_r by assumption.
    destruct (cor_bound m) as (_ & ? & _); [lia|].
    apply IH; unfold ex, ey; lia. }
  destruct Rg as (t0 & t1 & w0 & Rg).
  assert (N0 : t0 = 0 /\ t1 = 0).
  { destruct (Rg 0%Z ltac:(lia)) as (E1 & E2). pose proof (X0 0 0 ltac:(lia) eq_refl ltac:(lia))%Z as Y0.
    pose proof (X0 0 1 ltac:(lia) eq_refl ltac:(lia))%Z as Y1.
    revert E1 E2. cors. cbn [Z.mul Z.add Pos.mul Pos.add] in *. intros; repeat split; lra. }
  destruct N0 as (-> & ->).
  assert (N3 : w0 = 0).
  { destruct (Rg 3%Z ltac:(lia)) as (E1 & E2). pose proof (X0 3 0 ltac:(lia) eq_refl ltac:(lia))%Z as Y0.
    revert E1 E2. cors. cbn [Z.mul Z.add Pos.mul Pos.add Pos.succ] in *. intros E1 E2.
    assert (w0 * v_dy V = 0) by lra. eapply Rmult_eq_reg_r; [|apply Rgt_not_eq; exact Py]; lra. }
  subst w0.
  assert (All : forall m c, (0 <= m < 4)%Z -> (0 <= c < 2)%Z -> x (m * 2 + c)%Z = 0).
  { intros m c' Hm Hc'. destruct (Rg m Hm) as (E1 & E2). assert (Cc : c' = 0%Z \/ c' = 1%Z) by lia. destruct Cc as [-> | ->].
    - rewrite Z.add_0_r, E1. ring.
    - rewrite E2. ring. }
  assert (Cm : exists m, (0 <= m < 4)%Z /\ cor_x m = 1%Z /\ cor_y m = (j - ey)%Z).
  { assert (Cy : (j - ey = 0 \/ j - ey = 1)%Z) by (unfold ey; lia).
    destruct Cy as [-> | ->]; [exists 1%Z|exists 2%Z]; repeat split; lia. }
  destruct Cm as (m & Hm & Mx & My). rewrite <- (All m c Hm Hc), Xn, Mx, My by assumption.
  f_equal; unfold ex; lia.
Qed.
Lemma van_face2 w : van V w -> forall j c, (0 <= j < v_ny V)%Z -> (0 <= c < 2)%Z -> cmp2 V w c 0 j = 0.
Proof.
  intros Hw j c Hj Hc. pose proof (sa_nx V S). unfold cmp2. apply Hw.
  - rewrite (ndofs2 V S D). pose proof (node2_range (v_nx V) (v_ny V) 0 j ltac:(lia) Hj). nia.
  - apply bdof2_node; try assumption; try lia. unfold bnd2, on_bnd. tauto.
Qed.
Theorem definite2 w : van V w -> 0 <= work2 V (tsig2 V w) w /\
  (work2 V (tsig2 V w) w = 0 -> forall r, (0 <= r < ndofs V)%Z -> w r = 0).
Proof.
  intros Hw. pose proof wg2_pos as W.
  assert (Hq : forall e g x, In e (els2 V) -> In g (zrange 0 4) -> 0 <= quad 3 (tan2 V e) x /\
    (quad 3 (tan2 V e) x = 0 -> forall v, (0 <= v < 3)%Z -> x v = 0)) by (intros; now apply tan2_quad).
  split.
  - exact (work_nonneg (els2 V) 8 3 (zrange 0 4) (addr2 V) (B2 V) (wg2 V) (fun e g => tan2 V e) W Hq w).
  - intros Z0. pose proof (work_zero (els2 V) 8 3 (zrange 0 4) (addr2 V) (B2 V) (wg2 V) (fun e g => tan2 V e) W Hq w Z0) as Z1.
    intros r Hr. rewrite (ndofs2 V S D) in Hr.
    destruct (dof2_surj V S D r Hr) as (i & j & c & Hi & Hj & Hc & -> & _).
    exact (free2_zero w Z1 (van_face2 w Hw) i j c Hi Hj Hc).
Qed.
Theorem symmetric2 v w : work2 V (tsig2 V w) v = work2 V (tsig2 V v) w.
Proof.
  apply (work_sym (els2 V) 8 3 (zrange 0 4) (addr2 V) (B2 V) (wg2 V) (fun e g => tan2 V e)). intros. apply ctan2_sym.
Qed.
End Two.

(** ** Matrices given by an energy *)
Definition unit_at (r : Z) (i : Z) : R := if (i =? r)%Z then 1 else 0.
Lemma mul_unit (m : ell R) N r c : e_nrow m = N -> (0 <= c < N)%Z -> mul m (unit_at c) r = dense m r c.
Proof.
  intros E Hc. unfold mul, unit_at. rewrite E. rewrite (rsum_single _ _ c); [|apply NoDup_zrange|now apply in_zrange|].
  - rewrite Z.eqb_refl. ring.
  - intros b _ Hb. replace (b =? c)%Z with false by lia. ring.
Qed.
Lemma unit_sum N r (f : Z -> R) : (0 <= r < N)%Z -> rsum (zrange 0 N) (fun i => unit_at r i * f i) = f r.
Proof.
  intros Hr. unfold unit_at. rewrite (rsum_single _ _ r); [|apply NoDup_zrange|now apply in_zrange|].
  - rewrite Z.eqb_refl. ring.
  - intros b _ Hb. replace (b =? r)%Z with false by lia. ring.
Qed.

Section Spd.
Variables (N : Z) (free : Z -> Prop) (m : ell R) (W : (Z -> R) -> (Z -> R) -> R).
Let vanish (w : Z -> R) : Prop := forall r, (0 <= r < N)%Z -> ~ free r -> w r = 0.
Hypothesis HN : e_nrow m = N.
Hypothesis He : forall v w, vanish v -> vanish w -> rsum (zrange 0 N) (fun r => v r * mul m w r) = W w v.
Hypothesis Hs : forall v w, W w v = W v w.
Hypothesis Hd : forall w, vanish w -> 0 <= W w w /\ (W w w = 0 -> forall r, (0 <= r < N)%Z -> w r = 0).

Lemma unit_van r : free r -> vanish (unit_at r).
Proof. intros F i _ Ni. unfold unit_at. destruct (Z.eqb_spec i r) as [->|]; [contradiction|reflexivity]. Qed.
Lemma spd_sym r c : (0 <= r < N)%Z -> (0 <= c < N)%Z -> free r -> free c -> dense m r c = dense m c r.
Proof.
  intros Hr Hc Fr Fc.
  rewrite <- (mul_unit m N r c HN Hc), <- (mul_unit m N c r HN Hr).
  rewrite <- (unit_sum N r (mul m (unit_at c)) Hr), <- (unit_sum N c (mul m (unit_at r)) Hc).
  rewrite !He by now apply unit_van. apply Hs.
Qed.
Lemma spd_pos v : vanish v -> (exists r, (0 <= r < N)%Z /\ v r <> 0) -> 0 < rsum (zrange 0 N) (fun r => v r * mul m v r).
Proof.
  intros Vv (r & Hr & Nr). rewrite He by assumption. destruct (Hd v Vv) as (P & Q).
  destruct P as [P|P]; [exact P|]. exfalso. apply Nr. now apply Q.
Qed.
Lemma spd_diag r : (0 <= r < N)%Z -> free r -> 0 < dense m r r.
Proof.
  intros Hr Fr. rewrite <- (mul_unit m N r r HN Hr), <- (unit_sum N r (mul m (unit_at r)) Hr).
  apply spd_pos; [now apply unit_van|]. exists r. split; [assumption|]. unfold unit_at. rewrite Z.eqb_refl. lra.
Qed.
Lemma mul_identrow x r : (0 <= r < N)%Z -> (forall c, (0 <= c < N)%Z -> dense m r c = if (r =? c)%Z then 1 else 0) ->
  mul m x r = x r.
Proof.
  intros Hr H. unfold mul. rewrite HN, (rsum_single _ _ r); [|apply NoDup_zrange|now apply in_zrange|].
  - rewrite H, Z.eqb_refl by assumption. ring.
  - intros b Hb Ne. apply in_zrange in Hb. rewrite H by assumption. replace (r =? b)%Z with false by lia. ring.
Qed.
(** at most one solution, whatever the right-hand side *)
Lemma spd_inj x y : (forall r, ~ ~ free r -> free r) ->
  (forall r c, (0 <= r < N)%Z -> (0 <= c < N)%Z -> ~ free r -> dense m r c = if (r =? c)%Z then 1 else 0) ->
  (forall r, (0 <= r < N)%Z -> mul m x r = mul m y r) -> forall r, (0 <= r < N)%Z -> x r = y r.
Proof.
  intros Dec I H. set (z := fun i => x i - y i).
  assert (Mz : forall r, mul m z r = mul m x r - mul m y r).
  { intros r. unfold mul, z. rewrite <- rsum_minus. apply rsum_ext. intros c _. ring. }
  assert (Vz : vanish z).
  { intros r Hr Fr. rewrite <- (mul_identrow z r Hr) by (intros; now apply I). rewrite Mz, H by assumption. ring. }
  assert (E : W z z = 0).
  { rewrite <- He by assumption. apply rsum_zero. intros r Hr. apply in_zrange in Hr. rewrite Mz, H by assumption. ring. }
  destruct (Hd z Vz) as (_ & Q). intros r Hr. specialize (Q E r Hr). unfold z in Q. lra.
Qed.
End Spd.

Definition spd_on (N : Z) (free : Z -> Prop) (m : ell R) : Prop :=
  (forall r c, (0 <= r < N)%Z -> (0 <= c < N)%Z -> ~ free r -> dense m r c = if (r =? c)%Z then 1 else 0) /\
  (forall r c, (0 <= r < N)%Z -> (0 <= c < N)%Z -> free r -> free c -> dense m r c = dense m c r) /\
  (forall v, (forall r, (0 <= r < N)%Z -> ~ free r -> v r = 0) ->
     (exists r, (0 <= r < N)%Z /\ v r <> 0) -> 0 < rsum (zrange 0 N) (fun r => v r * mul m v r)) /\
  (forall x y, (forall r, (0 <= r < N)%Z -> mul m x r = mul m y r) -> forall r, (0 <= r < N)%Z -> x r = y r).

Definition fdof (V : env R) (r : Z) : Prop := ~ bdof V r.
Lemma bdof_dec V r : {bdof V r} + {~ bdof V r}.
Proof. apply bool_dec. Qed.
Lemma van_fdof V w : (forall r, (0 <= r < ndofs V)%Z -> ~ fdof V r -> w r = 0) -> van V w.
Proof. intros H r Hr B. apply H; [assumption|]. unfold fdof. tauto. Qed.

Theorem stiffness3_spd V uf of u vold vnew (A : ell R) : sane V -> v_dim V = 3%Z -> geom V -> linear V -> adm V ->
  rep u (ndofs V) uf -> old_ok V of vold -> alen vnew = (ncells V * 56)%Z ->
  matrix3 3 (v_nx V) (v_ny V) (v_nz V) A ->
  exists A', assembly_mat V u vold vnew A = Ok (A', vnew) /\
    matrix3 3 (v_nx V) (v_ny V) (v_nz V) A' /\ wf_ell A' 27 3 (v_nx V * v_ny V * v_nz V) /\
    spd_on (ndofs V) (fdof V) A' /\
    (forall r c, (0 <= r < ndofs V)%Z -> (0 <= c < ndofs V)%Z -> dense A' r c = dense A' c r) /\
    (forall r, (0 <= r < ndofs V)%Z -> 0 < getR (e_vals A') (diag_ix 27 13 3 r)) /\
    (forall x r, van V x -> (0 <= r < ndofs V)%Z -> ~ bdof V r -> mul A' x r = force3 V (tsig3 V uf of x) r).
Proof.
  intros S D G L Ad U O Lv M. rewrite (ndofs3 V D) in U.
  destruct (mat3_mul V S D uf of u vold vnew A U O Lv M) as (A' & vn & E & M' & W' & Rs & _ & Ir & Ic & Id & F).
  assert (Evn : vn = vnew).
  { assert (X : flat_map (mst V uf of) (els3 V) = []).
    { assert (Y : forall l, incl l (els3 V) -> flat_map (mst V uf of) l = []).
      { induction l as [|e l IH]; intros I; [reflexivity|]. cbn [flat_map]. rewrite IH by (intros a Ha; apply I; now right).
        unfold mst. rewrite (L _ (ix3_range V e D (I e (or_introl eq_refl)))). reflexivity. }
      apply Y. apply incl_refl. }
    rewrite X in Rs. cbn in Rs. congruence. }
  subst vn. exists A'. split; [exact E|]. split; [exact M'|]. split; [exact W'|].
  assert (HN : e_nrow A' = ndofs V) by (rewrite (ndofs3 V D); apply W').
  assert (He : forall v w, (forall r, (0 <= r < ndofs V)%Z -> ~ fdof V r -> v r = 0) ->
     (forall r, (0 <= r < ndofs V)%Z -> ~ fdof V r -> w r = 0) ->
     rsum (zrange 0 (ndofs V)) (fun r => v r * mul A' w r) = work3 V (tsig3 V uf of w) v).
  { intros v w Hv Hw. apply (energy3 V D uf of A'); [exact F|now apply van_fdof|now apply van_fdof]. }
  assert (Hs : forall v w, work3 V (tsig3 V uf of w) v = work3 V (tsig3 V uf of v) w) by (intros; now apply symmetric3).
  assert (Hd : forall w, (forall r, (0 <= r < ndofs V)%Z -> ~ fdof V r -> w r = 0) ->
     0 <= work3 V (tsig3 V uf of w) w /\ (work3 V (tsig3 V uf of w) w = 0 -> forall r, (0 <= r < ndofs V)%Z -> w r = 0)).
  { intros w Hw. apply definite3; try assumption. now apply van_fdof. }
  set (W := fun w v => work3 V (tsig3 V uf of w) v).
  assert (Ir' : forall r c, (0 <= r < ndofs V)%Z -> (0 <= c < ndofs V)%Z -> ~ fdof V r -> dense A' r c = if (r =? c)%Z then 1 else 0).
  { intros r c Hr Hc Fr. apply Ir; try assumption. unfold fdof in Fr. destruct (bdof_dec V r); tauto. }
  split; [|split; [|split; [|exact F]]].
  - split; [exact Ir'|]. split; [|split].
    + intros. now apply (spd_sym (ndofs V) (fdof V) A' W HN He Hs).
    + intros. now apply (spd_pos (ndofs V) (fdof V) A' W He Hd).
    + intros x y H. apply (spd_inj (ndofs V) (fdof V) A' W HN He Hd); try assumption.
      intros r. unfold fdof. destruct (bdof_dec V r); tauto.
  - intros r c Hr Hc. destruct (bdof_dec V r) as [Br|Br], (bdof_dec V c) as [Bc|Bc].
    + rewrite !Ir by assumption. now rewrite Z.eqb_sym.
    + rewrite (Ir r c), (Ic c r) by assumption. destruct (Z.eqb_spec r c) as [->|]; [contradiction|reflexivity].
    + rewrite (Ir c r), (Ic r c) by assumption. destruct (Z.eqb_spec c r) as [->|]; [contradiction|reflexivity].
    + now apply (spd_sym (ndofs V) (fdof V) A' W HN He Hs).
  - intros r Hr. pose proof (sa_nx V S) as Hx. pose proof (sa_ny V S) as Hy.
    assert (Hz : (2 <= v_nz V)%Z) by (destruct (sa_dim V S); lia).
    rewrite (ndofs3 V D) in Hr.
    destruct (dof3_surj V S D r Hr) as (i & j & k & c & Hi & Hj & Hk & Hc & Er & Hb).
    destruct (bdof_dec V r) as [Br|Br].
    + rewrite Id; [lra|rewrite (ndofs3 V D); exact Hr|exact Br].
    + rewrite Er. rewrite <- (diag3_dense 3 (v_nx V) (v_ny V) (v_nz V) A' i j k c); try assumption; try lia.
      * rewrite <- Er. apply (spd_diag (ndofs V) (fdof V) A' W HN He Hd); [|exact Br]. rewrite (ndofs3 V D). exact Hr.
      * now apply matrix3_struct.
      * tauto.
Qed.

Theorem stiffness2_spd V u vold vnew (A : ell R) : sane V -> v_dim V = 2%Z -> geom V -> adm V ->
  matrix2 2 (v_nx V) (v_ny V) A ->
  exists A', assembly_mat V u vold vnew A = Ok (A', vnew) /\
    matrix2 2 (v_nx V) (v_ny V) A' /\ wf_ell A' 9 2 (v_nx V * v_ny V) /\
    spd_on (ndofs V) (fdof V) A' /\
    (forall r, (0 <= r < ndofs V)%Z -> 0 < getR (e_vals A') (diag_ix 9 4 2 r)) /\
    (forall x r, van V x -> (0 <= r < ndofs V)%Z -> ~ bdof V r -> mul A' x r = force2 V (tsig2 V x) r).
Proof.
  intros S D G Ad M.
  destruct (mat2_mul V S D u vold vnew A M) as (A' & E & M' & W' & Ir & Id & F).
  exists A'. split; [exact E|]. split; [exact M'|]. split; [exact W'|].
  assert (HN : e_nrow A' = ndofs V) by (rewrite (ndofs2 V S D); apply W').
  assert (He : forall v w, (forall r, (0 <= r < ndofs V)%Z -> ~ fdof V r -> v r = 0) ->
     (forall r, (0 <= r < ndofs V)%Z -> ~ fdof V r -> w r = 0) ->
     rsum (zrange 0 (ndofs V)) (fun r => v r * mul A' w r) = work2 V (tsig2 V w) v).
  { intros v w Hv Hw. apply (energy2 V S D A'); [exact F|now apply van_fdof|now apply van_fdof]. }
  assert (Hs : forall v w, work2 V (tsig2 V w) v = work2 V (tsig2 V v) w) by (intros; now apply symmetric2).
  assert (Hd : forall w, (forall r, (0 <= r < ndofs V)%Z -> ~ fdof V r -> w r = 0) ->
     0 <= work2 V (tsig2 V w) w /\ (work2 V (tsig2 V w) w = 0 -> forall r, (0 <= r < ndofs V)%Z -> w r = 0)).
  { intros w Hw. apply definite2; try assumption. now apply van_fdof. }
  set (W := fun w v => work2 V (tsig2 V w) v).
  assert (Ir' : forall r c, (0 <= r < ndofs V)%Z -> (0 <= c < ndofs V)%Z -> ~ fdof V r -> dense A' r c = if (r =? c)%Z then 1 else 0).
  { intros r c Hr Hc Fr. apply Ir; try assumption. unfold fdof in Fr. destruct (bdof_dec V r); tauto. }
  split; [|split; [|exact F]].
  - split; [exact Ir'|]. split; [|split].
    + intros. now apply (spd_sym (ndofs V) (fdof V) A' W HN He Hs).
    + intros. now apply (spd_pos (ndofs V) (fdof V) A' W He Hd).
    + intros x y H. apply (spd_inj (ndofs V) (fdof V) A' W HN He Hd); try assumption.
      intros r. unfold fdof. destruct (bdof_dec V r); tauto.
  - intros r Hr. pose proof (sa_nx V S) as Hx. pose proof (sa_ny V S) as Hy.
    rewrite (ndofs2 V S D) in Hr.
    destruct (dof2_surj V S D r Hr) as (i & j & c & Hi & Hj & Hc & Er & Hb).
    destruct (bdof_dec V r) as [Br|Br].
    + rewrite Id; [lra|rewrite (ndofs2 V S D); exact Hr|exact Br].
    + rewrite Er. rewrite <- (diag2_dense 2 (v_nx V) (v_ny V) A' i j c); try assumption; try lia.
      * rewrite <- Er. apply (spd_diag (ndofs V) (fdof V) A' W HN He Hd); [|exact Br]. rewrite (ndofs2 V S D). exact Hr.
      * now apply matrix2_struct.
      * tauto.
Qed.
