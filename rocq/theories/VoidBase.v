(** Cells without stiffness: what a zero Young's modulus does to the element matrices, to the
    rows of the nodes surrounded by such cells and to the solver.  [Zn x] stands for "x is a zero or
    a NaN"; the laws are those of IEEE arithmetic and are proved for it in VoidProps.v. *)
From Coq Require Import ZifyBool ZifyNat.
From Verif Require Import Base Scalar EllSpec EllInit EllModel EllAsm EllOp EllBc EllBc2 EllFinal Grid CgPure CgFinal CgProps AssemblyModel AsmPure AsmBnd
  AsmRun AsmMat MicroModel NewtonBase NanBase NanRun.
Open Scope Z_scope.

Record zero_like {T} {OT : Ops T} (N Zn : T -> Prop) : Prop := {
  z_nan : forall x, N x -> Zn x;
  z_0 : Zn (ofZ 0);
  z_add : forall x y, Zn x -> Zn y -> Zn (oadd x y);
  z_sub : forall x y, Zn x -> Zn y -> Zn (osub x y);
  z_opp : forall x, Zn x -> Zn (oopp x);
  z_mul_l : forall x y, Zn x -> Zn (omul x y);
  z_mul_r : forall x y, Zn y -> Zn (omul x y);
  z_div : forall x y, Zn x -> Zn (odiv x y);
  (** one over zero, times zero *)
  z_inv : forall x y, Zn x -> Zn y -> N (omul (odiv (ofZ 1) x) y);
  (** zero minus y has the square of y *)
  z_sq : forall x y, Zn x -> N (osub x y) \/ omul (osub x y) (osub x y) = omul y y;
  (** the tolerance of the linear solver is below the one of the Newton loop *)
  z_tol : forall x, oltb x cg_tol = true -> oltb x nr_tol = true }.

Section Void.
Context {T : Type} `{OT : Ops T}.
Variables N Zn : T -> Prop.
Hypothesis HN : nan_like N.
Hypothesis HZ : zero_like N Zn.
Implicit Types (V : env T) (w : work T).

Lemma z_fold {A} (l : list A) f z : Zn z -> (forall x, In x l -> Zn (f x)) -> Zn (fold_left (fun acc x => oadd acc (f x)) l z).
Proof.
  revert z. induction l as [|a l IH]; intros z H F; cbn [fold_left]; [exact H|].
  apply IH; [|intros x Hx; apply F; now right]. apply (z_add _ _ HZ); [exact H|]. apply F. now left.
Qed.
Lemma z_sumf {A} (l : list A) f : (forall x, In x l -> Zn (f x)) -> Zn (sumf l f).
Proof. apply z_fold. exact (z_0 _ _ HZ). Qed.
Lemma z_deltas l z : Zn z -> (forall x, In x l -> Zn x) -> Zn (fold_left oadd l z).
Proof. exact (z_fold l (fun x => x) z). Qed.
Lemma z_dec : Zn (dec 0 1).
Proof. apply (z_div _ _ HZ). exact (z_0 _ _ HZ). Qed.
Lemma z_ltab n f i : (forall k, 0 <= k < n -> Zn (f k)) -> Zn (lget (ltab n f) i).
Proof.
  intros H. unfold lget. destruct (Nat.lt_ge_cases (Z.to_nat i) (length (ltab n f))) as [L|L].
  - rewrite length_ltab in L. fold (lget (ltab n f) i). destruct (Z.leb_spec 0 i).
    + rewrite lget_ltab by lia. apply H. lia.
    + replace (lget (ltab n f) i) with (lget (ltab n f) 0) by (unfold lget; f_equal; lia). rewrite lget_ltab by lia. apply H. lia.
  - rewrite nth_overflow by exact L. exact (z_0 _ _ HZ).
Qed.
Lemma z_zeros n i : Zn (lget (zeros n) i).
Proof. apply z_ltab. intros. exact (z_0 _ _ HZ). Qed.
Lemma z_foldv {A} (f : list T -> A -> list T) l z i : (forall z a, (forall i, Zn (lget z i)) -> forall i, Zn (lget (f z a) i)) ->
  (forall i, Zn (lget z i)) -> Zn (lget (fold_left f l z) i).
Proof. intros F. revert z. induction l as [|a l IH]; intros z H; cbn [fold_left]; [apply H|]. apply IH. now apply F. Qed.

(** ** A cell without stiffness *)
Definition void2 V e : Prop := Zn (m_E (mat_at V (ix2 V e))).
Definition void3 V e : Prop := plastic_at V (ix3 V e) = false /\ Zn (m_lambda (mat_at V (ix3 V e))) /\ Zn (m_mu (mat_at V (ix3 V e))).

Lemma z_ctan2 E nu i j : Zn E -> Zn (ctan2 E nu i j).
Proof. intros H. unfold ctan2. apply (z_mul_r _ _ HZ), (z_div _ _ HZ). exact H. Qed.
Lemma z_ctan3 la mu i j : Zn la -> Zn mu -> Zn (ctan3 la mu i j).
Proof.
  intros L M. pose proof (z_0 _ _ HZ) as Z0. unfold ctan3.
  assert (C : Zn (if (i <? 3) && (j <? 3) then oadd (ofZ 0) la else ofZ 0)) by (destruct (_ && _); [now apply (z_add _ _ HZ)|exact Z0]).
  destruct (i =? j); [|exact C]. destruct (i <? 3); apply (z_add _ _ HZ); try exact C; try exact M. now apply (z_mul_r _ _ HZ).
Qed.
Lemma z_add_mat nv nd B ct wg Ae : (forall i j, Zn (ct i j)) -> (forall i, Zn (lget Ae i)) -> forall i, Zn (lget (add_mat nv nd B ct wg Ae) i).
Proof.
  intros C A i. unfold add_mat. apply z_ltab. intros q _. unfold accf. apply z_fold; [apply A|]. intros m _.
  apply (z_mul_l _ _ HZ), (z_mul_r _ _ HZ). unfold cxb. apply z_sumf. intros k _. now apply (z_mul_l _ _ HZ).
Qed.
Lemma z_add_rhs nv nd B s wg be : (forall i, Zn (lget s i)) -> (forall i, Zn (lget be i)) -> forall i, Zn (lget (add_rhs nv nd B s wg be) i).
Proof.
  intros C A i. unfold add_rhs. apply z_ltab. intros q _. unfold accf. apply z_fold; [apply A|]. intros m _.
  now apply (z_mul_l _ _ HZ), (z_mul_r _ _ HZ).
Qed.
Lemma emat2_void V e q : void2 V e -> Zn (lget (emat2 V e) q).
Proof. intros H. unfold emat2. apply z_foldv; [|intros; apply z_zeros]. intros z a A. apply z_add_mat; [|exact A]. intros i j. now apply z_ctan2. Qed.
Lemma emat3_void V uf of e q : void3 V e -> Zn (lget (emat3 V uf of e) q).
Proof.
  intros (P & L & M). unfold emat3. apply z_foldv; [|intros; apply z_zeros]. intros z a A. apply z_add_mat; [|exact A]. intros i j.
  unfold tan3. rewrite P. now apply z_ctan3.
Qed.
Lemma be2_void V uf e q : void2 V e -> Zn (lget (be2 V uf e) q).
Proof.
  intros H. unfold be2. apply z_foldv; [|intros; apply z_zeros]. intros z a A. apply z_add_rhs; [|exact A]. intros i.
  unfold sig2, stress2. apply z_ltab. intros k _. apply z_sumf. intros j _. apply (z_mul_l _ _ HZ). now apply z_ctan2.
Qed.
Lemma be3_void V uf of e q : void3 V e -> Zn (lget (be3 V uf of e) q).
Proof.
  intros (P & L & M). unfold be3. apply z_foldv; [|intros; apply z_zeros]. intros z a A. apply z_add_rhs; [|exact A]. intros i.
  unfold sig3. rewrite P. unfold lin_stress3. apply z_ltab. intros k _. destruct (k <? 3).
  - apply (z_add _ _ HZ); [now apply (z_mul_l _ _ HZ)|]. now apply (z_mul_l _ _ HZ), (z_mul_r _ _ HZ).
  - now apply (z_mul_l _ _ HZ).
Qed.

(** ** A node inside the cell with only such cells around it *)
Definition void_dof V a : Prop := exists i j k c, 0 < i < v_nx V - 1 /\ 0 < j < v_ny V - 1 /\ 0 <= c < v_dim V /\
  a = node (v_nx V) (v_ny V) i j k * v_dim V + c /\
  if v_dim V =? 2 then k = 0 /\ forall ex ey, i - 1 <= ex <= i -> j - 1 <= ey <= j -> void2 V (ex, ey)
  else 0 < k < v_nz V - 1 /\ forall ex ey ez, i - 1 <= ex <= i -> j - 1 <= ey <= j -> k - 1 <= ez <= k -> void3 V (ex, ey, ez).
Lemma void_inner V a : void_dof V a -> inner V a.
Proof.
  intros (i & j & k & c & Hi & Hj & Hc & -> & H). exists i, j, k, c. repeat split; try lia. destruct (v_dim V =? 2); tauto.
Qed.

Lemma near2_dec nx ny n s : 0 <= s < 9 -> {near2 nx ny n s} + {~ near2 nx ny n s}.
Proof.
  intros Hs. pose proof (fun v => in_bc2_near (T:=T) 1 nx ny n 0 s 0 v ltac:(lia) Hs ltac:(lia)) as I.
  destruct (existsb (fun p => fst p =? cell 9 1 n 0 s 0) (bc2_near (T:=T) 1 nx ny)) eqn:E.
  - left. apply existsb_exists in E. destruct E as ((b, v) & Hin & Eb). cbn [fst] in Eb. apply Z.eqb_eq in Eb. subst b. now apply (I v).
  - right. intros H. assert (Hin : In (cell 9 1 n 0 s 0, ofZ 0) (bc2_near (T:=T) 1 nx ny)) by now apply I.
    assert (C : existsb (fun p => fst p =? cell 9 1 n 0 s 0) (bc2_near (T:=T) 1 nx ny) = true) by (apply existsb_exists; eexists; split; [exact Hin|apply Z.eqb_refl]).
    congruence.
Qed.
Definition nnz V : Z := if v_dim V =? 2 then 9 * 2 else 27 * 3.
(** its rows of the matrix *)
Lemma mat_void V u vold vnew A A' vn a : sane V -> full u (ndofs V) -> has_old V vold -> alen vnew = nvars V -> is_mat V A ->
  void_dof V a -> assembly_mat V u vold vnew A = Ok (A', vn) -> forall q, 0 <= q < nnz V -> Zn (oval (e_vals A') (a * nnz V + q)).
Proof.
  intros S U O L M (i & j & k & c & Hi & Hj & Hc & -> & H) E q Hq. pose proof (sa_nx V S) as Hx. pose proof (sa_ny V S) as Hy.
  pose proof (full_oval _ _ U) as RU. pose proof (z_0 _ _ HZ) as Z0.
  unfold nnz, is_mat in *. destruct (dim_cases V S) as [D|D]; rewrite D in *; cbn [Z.eqb Pos.eqb] in *.
  - destruct H as (-> & Hv). pose proof (matrix2_struct 2 _ _ _ Hx Hy ltac:(lia) M) as St.
    destruct (mat2_ok V S u vold vnew A D St) as (A1 & A2 & E0 & E1 & E2). rewrite E in E0. injection E0 as -> _.
    destruct (assemble2_ok 2 (v_nx V) (v_ny V) (fun e => lget (emat2 V e)) (els2 V) A ltac:(lia) St) as (v & E1' & St1 & R1).
    { intros [ex ey] He. now apply in_els2 in He. }
    rewrite E1 in E1'. injection E1' as ->.
    destruct (set_bc_2D_ok (set_vals A v) 2 (v_nx V) (v_ny V) Hx Hy ltac:(lia) St1) as (w' & E2' & _ & G). rewrite E2 in E2'. injection E2' as ->.
    set (s := q / 2). set (d2 := q mod 2). assert (Hs : 0 <= s < 9) by (unfold s; Z.div_mod_to_equations; lia). assert (Hd : 0 <= d2 < 2) by (unfold d2; apply Z.mod_pos_bound; lia).
    replace ((node (v_nx V) (v_ny V) i j 0 * 2 + c) * (9 * 2) + q) with (cell 9 2 (node (v_nx V) (v_ny V) i j 0) c s d2)
      by (unfold cell, s, d2; rewrite (Z.div_mod q 2) at 3 by lia; ring).
    destruct (G i j c s d2 ltac:(lia) ltac:(lia) Hc Hs Hd) as (_ & G1). cbn zeta in G1.
    assert (Nb : ~ bnd2 (v_nx V) (v_ny V) i j) by (unfold bnd2, on_bnd; lia). destruct (G1 Nb) as (Ga & Gb). cbn [set_vals e_vals] in *.
    destruct (near2_dec (v_nx V) (v_ny V) (node (v_nx V) (v_ny V) i j 0) s Hs) as [C|C]; unfold oval.
    + rewrite (Ga C). exact Z0.
    + rewrite (Gb C). rewrite (proj2 R1) by (apply cell_range; try lia; pose proof (node_range (v_nx V) (v_ny V) 1 i j 0); lia).
      apply z_deltas; [exact Z0|]. intros x Hin. unfold deltas in Hin. apply in_map_iff in Hin. destruct Hin as ((a', x') & <- & Hin). apply filter_In in Hin. destruct Hin as (Hin & Ea). cbn [fst snd] in *.
      apply Z.eqb_eq in Ea. subst a'. unfold add_all in Hin. apply in_flat_map in Hin. destruct Hin as ((ex, ey) & He & Hin).
      apply in_add_struct in Hin. destruct Hin as (i' & n' & k' & j' & Hi' & Hn' & Hk' & Hj' & Ec & ->).
      destruct (cols_row2_spec k' n' Hk' Hn') as (Hcr & _).
      apply cell_inj in Ec; try lia. destruct Ec as (En & _). cbn [sn2e] in En. rewrite (sn2_corner _ (v_ny V)) in En by exact Hk'. unfold corner2 in En.
      apply in_els2 in He. destruct (cor_bound k') as (? & ? & _); [lia|]. apply node_inj in En; try lia. destruct En as (-> & -> & _).
      apply emat2_void. apply Hv; lia.
  - destruct H as (Hk & Hv). pose proof (sane_nz V S D) as Hz. pose proof (matrix3_struct 3 _ _ _ _ Hx Hy Hz ltac:(lia) M) as St.
    rewrite (ndofs_eq3 V D) in RU. rewrite nvars_eq in L.
    destruct (mat3_ok V (oval u) (oval vold) S u vold vnew A D RU (has_old_ok _ _ O) L St) as (A1 & A2 & vn2 & E0 & E1 & E2 & _). rewrite E in E0. injection E0 as -> _.
    destruct (assemble3_ok 3 (v_nx V) (v_ny V) (v_nz V) (fun e => lget (emat3 V (oval u) (oval vold) e)) (els3 V) A ltac:(lia) St) as (v & E1' & St1 & R1).
    { intros [[ex ey] ez] He. now apply in_els3 in He. }
    rewrite E1 in E1'. injection E1' as ->.
    destruct (set_bc_3D_ok (set_vals A v) 3 (v_nx V) (v_ny V) (v_nz V) Hx Hy Hz ltac:(lia) St1) as (w' & E2' & _ & G). rewrite E2 in E2'. injection E2' as ->.
    set (s := q / 3). set (d2 := q mod 3). assert (Hs : 0 <= s < 27) by (unfold s; Z.div_mod_to_equations; lia). assert (Hd : 0 <= d2 < 3) by (unfold d2; apply Z.mod_pos_bound; lia).
    replace ((node (v_nx V) (v_ny V) i j k * 3 + c) * (27 * 3) + q) with (cell 27 3 (node (v_nx V) (v_ny V) i j k) c s d2)
      by (unfold cell, s, d2; rewrite (Z.div_mod q 3) at 3 by lia; ring).
    destruct (G i j k c s d2 ltac:(lia) ltac:(lia) ltac:(lia) Hc Hs Hd) as (_ & G1). cbn zeta in G1.
    assert (Nb : ~ bnd3 (v_nx V) (v_ny V) (v_nz V) i j k) by (unfold bnd3, on_bnd; lia). destruct (G1 Nb) as (Ga & Gb). cbn [set_vals e_vals] in *.
    destruct (bnd3_dec (v_nx V) (v_ny V) (v_nz V) (i + off_x s) (j + off_y s) (k + off_z s)) as [C|C]; unfold oval.
    + rewrite (Ga C). exact Z0.
    + rewrite (Gb C). rewrite (proj2 R1) by (apply cell_range; try lia; apply node_range; lia).
      apply z_deltas; [exact Z0|]. intros x Hin. unfold deltas in Hin. apply in_map_iff in Hin. destruct Hin as ((a', x') & <- & Hin). apply filter_In in Hin. destruct Hin as (Hin & Ea). cbn [fst snd] in *.
      apply Z.eqb_eq in Ea. subst a'. unfold add_all in Hin. apply in_flat_map in Hin. destruct Hin as (((ex, ey), ez) & He & Hin).
      apply in_add_struct in Hin. destruct Hin as (i' & n' & k' & j' & Hi' & Hn' & Hk' & Hj' & Ec & ->).
      destruct (cols_row3_spec k' n' Hk' Hn') as (Hcr & _).
      apply cell_inj in Ec; try lia. destruct Ec as (En & _). cbn [sn3e] in En. rewrite sn3_corner in En by exact Hk'. unfold corner3 in En.
      apply in_els3 in He. destruct (cor_bound k') as (? & ? & ?); [lia|]. apply node_inj in En; try lia. destruct En as (-> & -> & ->).
      apply emat3_void. apply Hv; lia.
Qed.
(** its residual, and the norm as it is compared *)
Lemma rhs_void V u vold vnew b b' nl vn er a : sane V -> full u (ndofs V) -> has_old V vold -> alen vnew = nvars V -> alen b = ndofs V ->
  void_dof V a -> assembly_rhs V u vold vnew b = Ok (b', nl, vn, er) -> Zn (oval b' a) /\ er = norm2 (ndofs V) (oval b').
Proof.
  intros S U O L Lb Hv E. pose proof (inner_range V a S (void_inner V a Hv)) as Ha. destruct Hv as (i & j & k & c & Hi & Hj & Hc & -> & H).
  pose proof (full_oval _ _ U) as RU. pose proof z_dec as Zd.
  assert (F : forall n (b : arr T) r, rep b n r -> norm2 n r = norm2 n (oval b)).
  { intros n b0 r R. unfold norm2. f_equal. apply sumf_ext. intros q Hq. apply in_zrange in Hq. unfold oval. now rewrite (proj2 R q Hq). }
  destruct (dim_cases V S) as [D|D]; rewrite D in *; cbn [Z.eqb Pos.eqb] in *.
  - destruct H as (-> & Hv). rewrite (ndofs_eq2 V S D) in *.
    destruct (rhs2_ok V _ (oval u) S u vold vnew b D RU Lb) as (b2 & E2 & R2). rewrite E in E2. injection E2 as <- -> -> ->. split; [|now apply F].
    unfold oval at 1. rewrite (proj2 R2 _ Ha). unfold resid. apply (z_opp _ _ HZ). destruct (bndb _ _ _); [exact Zd|].
    apply z_deltas; [exact Zd|]. intros x Hin. unfold deltas in Hin. apply in_map_iff in Hin. destruct Hin as ((a', x') & <- & Hin). apply filter_In in Hin. destruct Hin as (Hin & Ea). cbn [fst snd] in *.
    apply Z.eqb_eq in Ea. subst a'. apply (proj1 (in_rhs_all2 V (oval u) (oval u) _ _)) in Hin. destruct Hin as ((ex, ey) & q & He & Hq & Ec & ->).
    apply dof_inj in Ec; [|lia|apply Z.mod_pos_bound; lia]. destruct Ec as (En & _). unfold corner2 in En. apply in_els2 in He.
    assert (Hk' : 0 <= q / 2 < 4) by (Z.div_mod_to_equations; lia). destruct (cor_bound (q / 2)) as (? & ? & _); [lia|]. apply node_inj in En; try lia. destruct En as (-> & -> & _).
    apply be2_void. apply Hv; lia.
  - destruct H as (Hk & Hv). pose proof (sane_nz V S D) as Hz. rewrite (ndofs_eq3 V D) in *. rewrite nvars_eq in L.
    destruct (rhs3_ok V _ _ S u vold vnew b D RU (has_old_ok _ _ O) L Lb) as (b2 & vn2 & E2 & R2 & _). rewrite E in E2. injection E2 as <- -> <- ->. split; [|now apply F].
    unfold oval at 1. rewrite (proj2 R2 _ Ha). unfold resid. apply (z_opp _ _ HZ). destruct (bndb _ _ _); [exact Zd|].
    apply z_deltas; [exact Zd|]. intros x Hin. unfold deltas in Hin. apply in_map_iff in Hin. destruct Hin as ((a', x') & <- & Hin). apply filter_In in Hin. destruct Hin as (Hin & Ea). cbn [fst snd] in *.
    apply Z.eqb_eq in Ea. subst a'. apply (proj1 (in_rhs_all3 V _ _ _ _)) in Hin. destruct Hin as (((ex, ey), ez) & q & He & Hq & Ec & ->).
    apply dof_inj in Ec; [|lia|apply Z.mod_pos_bound; lia]. destruct Ec as (En & _). unfold corner3 in En. apply in_els3 in He.
    assert (Hk' : 0 <= q / 3 < 8) by (Z.div_mod_to_equations; lia). destruct (cor_bound (q / 3)) as (? & ? & ?); [lia|]. apply node_inj in En; try lia. destruct En as (-> & -> & ->).
    apply be3_void. apply Hv; lia.
Qed.

(** ** The solver on such a row *)
Lemma nan_or {A} (l : list A) (f g : A -> T) : (forall x, In x l -> N (f x) \/ f x = g x) -> (exists x, In x l /\ N (f x)) \/ forall x, In x l -> f x = g x.
Proof.
  induction l as [|a l IH]; intros H; [right; intros x []|].
  destruct (H a (or_introl eq_refl)) as [Ha|Ha]; [left; exists a; split; [now left|exact Ha]|].
  destruct IH as [(x & Hx & Hn)|Hall]; [intros x Hx; apply H; now right|left; exists x; split; [now right|exact Hn]|].
  right. intros x [<-|Hx]; [exact Ha|now apply Hall].
Qed.
Lemma solve_void V A b du a0 : sane V -> full_mat V A -> full b (ndofs V) -> full du (ndofs V) ->
  (forall a, 0 <= a < ndofs V -> Zn (oval du a)) -> 0 <= a0 < ndofs V -> (forall q, 0 <= q < nnz V -> Zn (oval (e_vals A) (a0 * nnz V + q))) ->
  Zn (oval b a0) -> oltb (norm2 (ndofs V) (oval b)) nr_tol = false ->
  exists du', solve V A b du = Ok du' /\ full du' (ndofs V) /\ forall a, 0 <= a < ndofs V -> N (oval du' a).
Proof.
  intros S (M & F) B X Zd Ha0 Row Zb Tol. pose proof (sa_nx V S) as Hx. pose proof (sa_ny V S) as Hy.
  assert (G : forall f nF nx ny nz, wf_ell A (slots f) nF (nodes f nx ny nz) -> ndofs V = nodes f nx ny nz * nF -> nnz V = slots f * nF ->
    (forall a, 0 <= a < slots f * nF * (nodes f nx ny nz * nF) -> 0 <= colsf A a < nodes f nx ny nz * nF) ->
    exists sv x, run_cg f (mkSolver cg_its 0 cg_tol (ofZ 0)) A nF nx ny nz b du = Ok (sv, x) /\ full x (ndofs V) /\
      forall a, 0 <= a < ndofs V -> N (oval x a)).
  { intros f nF nx ny nz W En Enz Hcf. rewrite run_cgpd. pose proof (full_oval _ _ B) as RB. pose proof (full_oval _ _ X) as RX. rewrite En, Enz in *.
    destruct (wf_vals _ _ _ _ W) as (vf & Vv). pose proof (wf_nF _ _ _ _ W) as HF. pose proof (dslot_range f) as Hds.
    destruct (cgpd_ok A (slots f) (dslot f) nF (nodes f nx ny nz) (colsf A) vf (mkSolver cg_its 0 cg_tol (ofZ 0)) b du (oval b) (oval du)
      W Hds (wf_reps _ _ _ _ W) Vv RB RX) as (x' & er & its & E & j & _ & Ei & Rx & Hno & C).
    cbn [s_max_its s_min_tol] in *. eexists _, x'. split; [exact E|]. split; [eapply rep_full; exact Rx|].
    set (s0 := cg_init _ _ _ _ _) in *. set (sq := cgseq _ _ _ s0) in *.
    assert (Hr : forall i, 0 <= i < nodes f nx ny nz * nF -> Zn (mvf (slots f * nF) (colsf A) vf (oval du) i)).
    { intros i Hi. unfold mvf. apply z_sumf. intros q Hq. apply in_zrange in Hq. apply (z_mul_r _ _ HZ). apply Zd. apply Hcf. nia. }
    assert (Vr : forall q, 0 <= q < slots f * nF -> Zn (vf (a0 * (slots f * nF) + q))).
    { intros q Hq. specialize (Row q Hq). unfold oval in Row. rewrite (proj2 Vv) in Row by nia. exact Row. }
    assert (R0 : Zn (sr s0 a0)) by (unfold s0, cg_init; cbn [sr]; apply (z_sub _ _ HZ); [now apply Hr|exact Zb]).
    assert (D0 : oltb (cgnorm (nodes f nx ny nz * nF) s0) cg_tol = false).
    { destruct (nan_or (zrange 0 (nodes f nx ny nz * nF)) (fun i => omul (sr s0 i) (sr s0 i)) (fun i => omul (oval b i) (oval b i))) as [(i & Hi & Hn)|Hall].
      - intros i Hi. apply in_zrange in Hi. unfold s0, cg_init. cbn [sr]. destruct (z_sq _ _ HZ _ (oval b i) (Hr i Hi)) as [Hn|Heq]; [left|right; exact Heq].
        now apply (nan_mul_l N HN).
      - apply (nan_lt_l N HN). unfold cgnorm, dotf. apply (nan_sqrt N HN). now apply (sumf_nan N HN _ _ i).
      - assert (En2 : cgnorm (nodes f nx ny nz * nF) s0 = norm2 (nodes f nx ny nz * nF) (oval b)).
        { unfold cgnorm, dotf, norm2. f_equal. apply sumf_ext. exact Hall. }
        rewrite En2. destruct (oltb (norm2 _ _) cg_tol) eqn:Ec; [|reflexivity]. apply (z_tol _ _ HZ) in Ec. congruence. }
    assert (Hj : j <> 0%nat).
    { intros ->. destruct C as [(C & _)|(C & _)]; [|congruence]. change (sq 0%nat) with s0 in C. congruence. }
    assert (Q : forall k i, N (sx (sq (Datatypes.S k)) i)).
    { induction k as [|k IH]; intros i.
      - unfold sq. cbn [cgseq Nat.eqb]. unfold cgstep. cbn [sx]. apply (nan_sub_r N HN), (nan_mul_l N HN). unfold cgd. apply (nan_div_l N HN).
        unfold cgrho, dotf. apply (sumf_nan N HN _ _ a0); [now apply in_zrange|]. apply (nan_mul_r N HN). unfold cgz.
        apply (z_inv _ _ HZ); [|exact R0]. unfold diag_ix. apply Vr. pose proof (Z.mod_pos_bound a0 nF ltac:(lia)). nia.
      - change (sq (Datatypes.S (Datatypes.S k))) with (cgstep (nodes f nx ny nz * nF) (mvf (slots f * nF) (colsf A) vf)
          (fun i => odiv (ofZ 1) (vf (diag_ix (slots f) (dslot f) nF i))) (Nat.eqb (Datatypes.S k) 0) (sq (Datatypes.S k))).
        unfold cgstep. cbn [sx]. apply (nan_sub_l N HN). apply IH. }
    intros a Ha. unfold oval. rewrite (proj2 Rx a Ha). destruct j as [|j]; [congruence|]. apply Q. }
  unfold solve, is_mat in *. destruct (dim_cases V S) as [D|D]; rewrite D in *; cbn [Z.eqb Pos.eqb] in *.
  - assert (W : wf_ell A (slots CG2D) 2 (nodes CG2D (v_nx V) (v_ny V) 1)) by (apply matrix2_wfg; try assumption; lia).
    destruct (G CG2D 2 (v_nx V) (v_ny V) 1 W) as (sv & x & E & Fx & Nx).
    + rewrite (ndofs_eq2 V S D). reflexivity.
    + unfold nnz. rewrite D. reflexivity.
    + intros a Ha. destruct (wf_cols _ _ _ _ W) as (cf & (_ & Rc) & Hc). unfold colsf. rewrite (Rc a Ha). now apply Hc.
    + cbn [run_cg] in E. rewrite E. cbn [bind snd]. exists x. auto.
  - pose proof (sane_nz V S D) as Hz. assert (W : wf_ell A (slots CGstruct3) 3 (nodes CGstruct3 (v_nx V) (v_ny V) (v_nz V))) by (apply matrix3_wfg; try assumption; lia).
    destruct (G CGstruct3 3 (v_nx V) (v_ny V) (v_nz V) W) as (sv & x & E & Fx & Nx).
    + rewrite (ndofs_eq3 V D). reflexivity.
    + unfold nnz. rewrite D. reflexivity.
    + intros a Ha. destruct (wf_cols _ _ _ _ W) as (cf & (_ & Rc) & Hc). unfold colsf. rewrite (Rc a Ha). now apply Hc.
    + cbn [run_cg] in E. unfold nn. rewrite E. cbn [bind snd]. exists x. auto.
Qed.

(** ** The Newton loop *)
Lemma body_void V w w' nl er brk : sane V -> wok V w -> (exists a, void_dof V a) -> newton_body V w = Ok (w', nl, er, brk) ->
  brk = true /\ oltb er nr_tol = true /\ w_u w' = w_u w \/ brk = false /\ forall a, 0 <= a < ndofs V -> N (oval (w_u w') a).
Proof.
  intros S K (a0 & Hv) E. destruct K as [U Ldu Lb A O L]. unfold newton_body in E.
  destruct (rhs_ok V _ _ _ _ S U O L Lb) as (b & nl0 & vn & er0 & E0 & Fb & Lv & _). rewrite E0 in E. cbn [bind] in E.
  destruct (oltb er0 nr_tol) eqn:Et; [injection E as <- _ <- <-; left; auto|].
  destruct (rhs_void V _ _ _ _ _ _ _ _ a0 S U O L Lb Hv E0) as (Zb & ->).
  destruct (mat_ok V (w_u w) (w_vold w) vn (w_A w) S U O Lv A) as (A' & vn' & Em & FA & _).
  pose proof (mat_void V _ _ _ _ _ _ a0 S U O Lv A Hv Em) as Row. rewrite Em in E. cbn [bind fst snd] in E.
  destruct (zero_all (oval (w_u w)) (oval (w_u w)) (ndofs V) (w_du w) (ndofs_pos V S) Ldu) as (d0 & Ed0 & R0). rewrite Ed0 in E. cbn [bind] in E.
  destruct (solve_void V A' b d0 a0 S FA Fb (rep_full _ _ _ R0)) as (d & Ed & Fd & Nd); try assumption.
  { intros a Ha. unfold oval. rewrite (proj2 R0 a Ha). exact z_dec. }
  { apply inner_range; [exact S|now apply void_inner]. }
  rewrite Ed in E. cbn [bind] in E.
  apply bind_ok in E. destruct E as (u' & Eu & E). injection E as <- _ _ <-. right. split; [reflexivity|]. intros a Ha. cbn [w_u].
  rewrite (add_loop_nan _ _ _ _ a U Fd Eu Ha). apply (nan_add_r N HN). now apply Nd.
Qed.
Lemma newton_void V pk fuel w w' nl it er : sane V -> wok V w -> (exists a, void_dof V a) -> newton fuel pk V w = Ok (w', nl, it, er) ->
  oltb er nr_tol = true /\ w_u w' = w_u w \/ forall a, 0 <= a < ndofs V -> N (oval (w_u w') a).
Proof.
  intros S K Hv E. unfold newton in E. destruct fuel as [|fuel]; cbn [newton_loop] in E; [discriminate|].
  destruct (body_ok V w S K) as (w1 & nl1 & er1 & brk & E1 & K1 & _). rewrite E1 in E. cbn [bind] in E.
  destruct (body_void V w w1 nl1 er1 brk S K Hv E1) as [(-> & Et & Eu)|(-> & P)]; [injection E as <- _ _ <-; left; auto|]. right. intros a Ha.
  apply bind_ok in E. destruct E as (i & _ & E). destruct (_ && _)%bool; [|injection E as <- _ _ _; now apply P].
  exact (loop_nan N HN V pk fuel a S Ha _ _ _ _ K1 E (P a Ha)).
Qed.
(** a response: the displacements set_displ left, accepted at once, or NaN *)
Lemma respond_void V pk fuel eps w w' nl it er s : sane V -> wok V w -> (exists a, void_dof V a) -> respond fuel pk V eps w = Ok (w', nl, it, er, s) ->
  (oltb er nr_tol = true /\ set_displ V eps (w_u w) = Ok (w_u w')) \/
  (forall a, 0 <= a < ndofs V -> N (oval (w_u w') a)) /\ alln N (nvoi V) s.
Proof.
  intros S K Hv E. unfold respond in E. destruct (displ_ok V eps (w_u w) S (wk_u _ _ K)) as (u & Eu & Fu). rewrite Eu in E. cbn [bind] in E.
  assert (K1 : wok V (set_u w u)) by (destruct K; constructor; assumption).
  apply bind_ok in E. destruct E as (r & En & E). pose proof (newton_ok V pk fuel (set_u w u) S K1) as H. rewrite En in H.
  destruct r as (((w2, nl2), it2), er2). destruct H as (_ & K2 & _). apply bind_ok in E. destruct E as ((s2, vn2) & Es & E). injection E as <- _ _ <- <-.
  cbn [fst snd set_vnew w_u]. destruct (newton_void V pk fuel _ _ _ _ _ S K1 Hv En) as [(Et & Ew)|P].
  - left. split; [exact Et|]. rewrite Ew. exact Eu.
  - right. split; [exact P|]. apply (ave_stress_nan N HN V _ _ _ _ _ S (wk_u _ _ K2) (wk_old _ _ K2) (wk_new _ _ K2) Es).
    exists 0. pose proof (ndofs_pos V S) as Hp. destruct Hv as (a0 & Ha0). pose proof (inner_range V a0 S (void_inner V a0 Ha0)). split; [lia|]. apply P. lia.
Qed.

End Void.
