(** The assembly results in the vocabulary of AsmSpec. *)
From Coq Require Import Reals Lra ZifyBool.
From Verif Require Import Base Scalar EllSpec EllInit Grid EllModel EllAsm EllOp EllFinal EllProps
  CgPure CgTheory CgFinal CgProps AssemblyModel AsmPure AsmBnd AsmRun AsmMat FemGen FemAve FemMat FemMat2 FemDef FemPd FemRhs FemEquil AsmSpec.
Open Scope Z_scope.
Open Scope R_scope.

(** ** Links *)
Lemma full_rep u n : full u n -> rep u n (val u).
Proof. intros (L & H). split; [exact L|]. intros i Hi. destruct (H i Hi) as (x & E). unfold val. now rewrite E. Qed.
Lemma rep_full u n f : rep u n f -> full u n.
Proof. intros (L & H). split; [exact L|]. intros i Hi. exists (f i). auto. Qed.
Lemma rep_val u n f i : rep u n f -> (0 <= i < n)%Z -> val u i = f i.
Proof. intros (L & H) Hi. unfold val. now rewrite H. Qed.
Lemma vars_old V vold vnew : vars_ok V vold vnew -> old_ok V (val vold) vold.
Proof.
  intros (H & _) e g i He Hg Hi P. destruct (H e g i He Hg Hi P) as (x & E). unfold intvar_ix, val. now rewrite E.
Qed.
Lemma dof3_node V i j k c : dof3 V i j k c = (node (v_nx V) (v_ny V) i j k * 3 + c)%Z.
Proof. unfold dof3, node. ring. Qed.
Lemma dof2_node V i j c : dof2 V i j c = (node (v_nx V) (v_ny V) i j 0 * 2 + c)%Z.
Proof. unfold dof2, node. ring. Qed.
Lemma on_face V i j k : on_face3 V i j k <-> bnd3 (v_nx V) (v_ny V) (v_nz V) i j k.
Proof. unfold on_face3, bnd3, on_bnd. tauto. Qed.
Lemma on_edge V i j : on_edge2 V i j <-> bnd2 (v_nx V) (v_ny V) i j.
Proof. unfold on_edge2, bnd2, on_bnd. tauto. Qed.
Lemma dof3_range V i j k c : is_node3 V i j k -> (0 <= c < 3)%Z -> v_dim V = 3%Z -> (0 <= dof3 V i j k c < ndofs V)%Z.
Proof.
  intros (Hi & Hj & Hk) Hc D. rewrite (ndofs3 V D), dof3_node.
  pose proof (node_range (v_nx V) (v_ny V) (v_nz V) i j k Hi Hj Hk). lia.
Qed.
Lemma dof2_range V i j c : sane V -> is_node2 V i j -> (0 <= c < 2)%Z -> v_dim V = 2%Z -> (0 <= dof2 V i j c < ndofs V)%Z.
Proof.
  intros S (Hi & Hj) Hc D. rewrite (ndofs2 V S D), dof2_node.
  pose proof (node_range (v_nx V) (v_ny V) 1 i j 0 Hi Hj ltac:(lia)). lia.
Qed.
Lemma cdof3_addr V ex ey ez i : cdof3 V ex ey ez (i / 3) (i mod 3) = addr3 V (ex, ey, ez) i.
Proof. unfold cdof3, addr3, corner3. apply dof3_node. Qed.
Lemma cdof2_addr V ex ey i : cdof2 V ex ey (i / 2) (i mod 2) = addr2 V (ex, ey) i.
Proof. unfold cdof2, addr2, corner2. apply dof2_node. Qed.

Lemma affine_bndaff3 V e u : v_dim V = 3%Z -> affine_bnd3 V e u -> bndaff3 V e (val u).
Proof.
  intros D H i j k c Hi Hj Hk Hc B. unfold cmp3, val. rewrite <- dof3_node.
  destruct (H i j k) as (H0 & H1 & H2); [unfold is_node3; tauto|now apply on_face|].
  unfold affine3. pattern c. apply case3; [exact Hc|..]; [rewrite H0|rewrite H1|rewrite H2]; reflexivity.
Qed.
Lemma affine_bndaff2 V e u : v_dim V = 2%Z -> affine_bnd2 V e u -> bndaff2 V e (val u).
Proof.
  intros D H i j c Hi Hj Hc B. unfold cmp2, val. rewrite <- dof2_node.
  destruct (H i j) as (H0 & H1); [unfold is_node2; tauto|now apply on_edge|].
  unfold affine2. assert (C : (c = 0 \/ c = 1)%Z) by lia. destruct C as [-> | ->]; [rewrite H0|rewrite H1]; reflexivity.
Qed.

Lemma strain_field3_iff V u eps : full u (ndofs V) -> v_dim V = 3%Z ->
  (strain_field3 V u eps <-> forall ex ey ez g v, is_cell3 V ex ey ez -> (0 <= g < 8)%Z -> (0 <= v < 6)%Z ->
     eps ex ey ez g v = str3 V (val u) (ex, ey, ez) g v).
Proof.
  intros F D. pose proof (full_rep _ _ F) as U. rewrite (ndofs3 V D) in U.
  assert (E : forall ex ey ez g, is_cell3 V ex ey ez -> get_strain3D V u ex ey ez g = Ok (strain3 V (val u) (ex, ey, ez) g))
    by (intros; apply strain3_ok; [exact U|now apply in_els3]).
  split.
  - intros H ex ey ez g v Hc Hg Hv. destruct (H ex ey ez g Hc Hg) as (l & El & Hl).
    rewrite (E ex ey ez g Hc) in El. injection El as <-. rewrite <- (Hl v Hv). now apply strain3_str.
  - intros H ex ey ez g Hc Hg. eexists. split; [now apply E|]. intros v Hv. rewrite (H _ _ _ _ _ Hc Hg Hv). now apply strain3_str.
Qed.
Lemma strain_field2_iff V u eps : sane V -> full u (ndofs V) -> v_dim V = 2%Z ->
  (strain_field2 V u eps <-> forall ex ey g v, is_cell2 V ex ey -> (0 <= g < 4)%Z -> (0 <= v < 3)%Z ->
     eps ex ey g v = str2 V (val u) (ex, ey) g v).
Proof.
  intros S F D. pose proof (full_rep _ _ F) as U. rewrite (ndofs2 V S D) in U.
  assert (E : forall ex ey g, is_cell2 V ex ey -> get_strain2D V u ex ey g = Ok (strain2 V (val u) (ex, ey) g))
    by (intros; apply strain2_ok; [exact U|now apply in_els2]).
  split.
  - intros H ex ey g v Hc Hg Hv. destruct (H ex ey g Hc Hg) as (l & El & Hl).
    rewrite (E ex ey g Hc) in El. injection El as <-. rewrite <- (Hl v Hv). now apply strain2_str.
  - intros H ex ey g Hc Hg. eexists. split; [now apply E|]. intros v Hv. rewrite (H _ _ _ _ Hc Hg Hv). now apply strain2_str.
Qed.
Lemma stress_cell3 V u vold vnew ex ey ez g : sane V -> v_dim V = 3%Z -> full u (ndofs V) -> vars_ok V vold vnew ->
  is_cell3 V ex ey ez -> (0 <= g < 8)%Z -> exists vn,
  get_strain3D V u ex ey ez g = Ok (strain3 V (val u) (ex, ey, ez) g) /\
  get_stress3D V vold vnew ex ey ez g (strain3 V (val u) (ex, ey, ez) g) =
    Ok (nl3 V (val vold) (ex, ey, ez) g (strain3 V (val u) (ex, ey, ez) g),
        sig3 V (val vold) (ex, ey, ez) g (strain3 V (val u) (ex, ey, ez) g), vn).
Proof.
  intros S D F W Hc Hg. pose proof (full_rep _ _ F) as U. rewrite (ndofs3 V D) in U.
  pose proof (vars_old V vold vnew W) as O. assert (He : In (ex, ey, ez) (els3 V)) by now apply in_els3.
  set (eps := strain3 V (val u) (ex, ey, ez) g).
  destruct (run_stores_ok (st3 V (val vold) (ex, ey, ez) g eps) vnew) as (vn & Ev & _).
  { intros j x Hj. apply (st3_range V (val u)) in Hj; try assumption. destruct W as (_ & L). lia. }
  exists vn. split; [now apply strain3_ok|]. rewrite (stress3_ok V (val u) (val vold)) by assumption. rewrite Ev. reflexivity.
Qed.
Lemma stress_field3_iff V u vold vnew sig : sane V -> v_dim V = 3%Z -> full u (ndofs V) -> vars_ok V vold vnew ->
  (stress_field3 V u vold vnew sig <-> forall ex ey ez g v, is_cell3 V ex ey ez -> (0 <= g < 8)%Z -> (0 <= v < 6)%Z ->
     sig ex ey ez g v = gs3 V (val u) (val vold) (ex, ey, ez) g v).
Proof.
  intros S D F W. split.
  - intros H ex ey ez g v Hc Hg Hv. destruct (H ex ey ez g Hc Hg) as (l & nl & s & vn & El & Es & Hl).
    destruct (stress_cell3 V u vold vnew ex ey ez g S D F W Hc Hg) as (vn' & El' & Es').
    rewrite El' in El. injection El as <-. rewrite Es' in Es. injection Es as _ <- _. now rewrite <- (Hl v Hv).
  - intros H ex ey ez g Hc Hg. destruct (stress_cell3 V u vold vnew ex ey ez g S D F W Hc Hg) as (vn' & El' & Es').
    do 4 eexists. split; [exact El'|]. split; [exact Es'|]. intros v Hv. now rewrite (H _ _ _ _ _ Hc Hg Hv).
Qed.
Lemma stress_field2_iff V u sig : sane V -> v_dim V = 2%Z -> full u (ndofs V) ->
  (stress_field2 V u sig <-> forall ex ey g v, is_cell2 V ex ey -> (0 <= g < 4)%Z -> (0 <= v < 3)%Z ->
     sig ex ey g v = gs2 V (val u) (ex, ey) g v).
Proof.
  intros S D F. pose proof (full_rep _ _ F) as U. rewrite (ndofs2 V S D) in U.
  assert (E : forall ex ey g, is_cell2 V ex ey -> get_strain2D V u ex ey g = Ok (strain2 V (val u) (ex, ey) g) /\
     get_stress2D V ex ey g (strain2 V (val u) (ex, ey) g) = Ok (false, sig2 V (ex, ey) (strain2 V (val u) (ex, ey) g))).
  { intros ex ey g Hc. assert (In (ex, ey) (els2 V)) by now apply in_els2. split; [now apply strain2_ok|now apply stress2_ok]. }
  split.
  - intros H ex ey g v Hc Hg Hv. destruct (H ex ey g Hc Hg) as (l & nl & s & El & Es & Hl).
    destruct (E ex ey g Hc) as (El' & Es').
    rewrite El' in El. injection El as <-. rewrite Es' in Es. injection Es as _ <-. now rewrite <- (Hl v Hv).
  - intros H ex ey g Hc Hg. destruct (E ex ey g Hc) as (El' & Es').
    do 3 eexists. split; [exact El'|]. split; [exact Es'|]. intros v Hv. now rewrite (H _ _ _ _ Hc Hg Hv).
Qed.

Lemma quad_els3 V (f : Z -> Z -> Z -> Z -> R) (h : Z * Z * Z -> Z -> R) :
  (forall ex ey ez g, is_cell3 V ex ey ez -> (0 <= g < 8)%Z -> f ex ey ez g = h (ex, ey, ez) g) ->
  quad_body3 V f = rsum (els3 V) (fun e => rsum (zrange 0 8) (fun g => h e g * wg3 V)).
Proof.
  intros H. rewrite rsum_els3. unfold quad_body3. apply rsum_ext. intros ex Hx. apply rsum_ext. intros ey Hy.
  apply rsum_ext. intros ez Hz. apply rsum_ext. intros g Hg. apply in_zrange in Hx, Hy, Hz, Hg.
  rewrite (H ex ey ez g) by (unfold is_cell3; lia). rewrite wg3_R. field.
Qed.
Lemma quad_els2 V (f : Z -> Z -> Z -> R) (h : Z * Z -> Z -> R) :
  (forall ex ey g, is_cell2 V ex ey -> (0 <= g < 4)%Z -> f ex ey g = h (ex, ey) g) ->
  quad_body2 V f = rsum (els2 V) (fun e => rsum (zrange 0 4) (fun g => h e g * wg2 V)).
Proof.
  intros H. rewrite rsum_els2. unfold quad_body2. apply rsum_ext. intros ex Hx. apply rsum_ext. intros ey Hy.
  apply rsum_ext. intros g Hg. apply in_zrange in Hx, Hy, Hg.
  rewrite (H ex ey g) by (unfold is_cell2; lia). rewrite wg2_R. field.
Qed.
Lemma work_body3 V (s : Z -> Z -> Z -> Z -> Z -> R) eps (h : Z * Z * Z -> Z -> Z -> R) w :
  (forall ex ey ez g v, is_cell3 V ex ey ez -> (0 <= g < 8)%Z -> (0 <= v < 6)%Z -> s ex ey ez g v = h (ex, ey, ez) g v) ->
  (forall ex ey ez g v, is_cell3 V ex ey ez -> (0 <= g < 8)%Z -> (0 <= v < 6)%Z -> eps ex ey ez g v = str3 V w (ex, ey, ez) g v) ->
  quad_body3 V (fun ex ey ez g => dot 6 (s ex ey ez g) (eps ex ey ez g)) = work3 V h w.
Proof.
  intros H1 H2. rewrite (quad_els3 V _ (fun e g => rsum (zrange 0 6) (fun v => h e g v * str3 V w e g v))).
  - unfold work3, mwork. apply rsum_ext. intros e _. apply rsum_ext. intros g _. rewrite <- rsum_scal_r. reflexivity.
  - intros ex ey ez g Hc Hg. apply rsum_ext. intros v Hv. apply in_zrange in Hv. now rewrite H1, H2.
Qed.
Lemma work_body2 V (s : Z -> Z -> Z -> Z -> R) eps (h : Z * Z -> Z -> Z -> R) w :
  (forall ex ey g v, is_cell2 V ex ey -> (0 <= g < 4)%Z -> (0 <= v < 3)%Z -> s ex ey g v = h (ex, ey) g v) ->
  (forall ex ey g v, is_cell2 V ex ey -> (0 <= g < 4)%Z -> (0 <= v < 3)%Z -> eps ex ey g v = str2 V w (ex, ey) g v) ->
  quad_body2 V (fun ex ey g => dot 3 (s ex ey g) (eps ex ey g)) = work2 V h w.
Proof.
  intros H1 H2. rewrite (quad_els2 V _ (fun e g => rsum (zrange 0 3) (fun v => h e g v * str2 V w e g v))).
  - unfold work2, mwork. apply rsum_ext. intros e _. apply rsum_ext. intros g _. rewrite <- rsum_scal_r. reflexivity.
  - intros ex ey g Hc Hg. apply rsum_ext. intros v Hv. apply in_zrange in Hv. now rewrite H1, H2.
Qed.

(** ** C19 *)
Theorem displ3_spec V e u : body3 V -> alen u = ndofs V ->
  exists u', set_displ V e u = Ok u' /\ alen u' = ndofs V /\ affine_bnd3 V e u' /\
    forall i j k c, is_node3 V i j k -> ~ on_face3 V i j k -> (0 <= c < 3)%Z ->
      aget u' (dof3 V i j k c) = aget u (dof3 V i j k c).
Proof.
  intros (S & G & D) L. rewrite (ndofs3 V D) in *. destruct (set_displ3_ok V e u S G D L) as (u' & E & L' & P).
  exists u'. split; [exact E|]. split; [exact L'|]. split.
  - intros i j k (Hi & Hj & Hk) B x y z. rewrite !dof3_node. apply on_face in B.
    repeat split; apply P; try assumption; lia.
  - intros i j k c (Hi & Hj & Hk) B Hc. rewrite !dof3_node. apply P; try assumption. now rewrite <- on_face.
Qed.
Theorem displ2_spec V e u : body2 V -> alen u = ndofs V ->
  exists u', set_displ V e u = Ok u' /\ alen u' = ndofs V /\ affine_bnd2 V e u' /\
    forall i j c, is_node2 V i j -> ~ on_edge2 V i j -> (0 <= c < 2)%Z ->
      aget u' (dof2 V i j c) = aget u (dof2 V i j c).
Proof.
  intros (S & G & D) L. rewrite (ndofs2 V S D) in *. destruct (set_displ2_ok V e u S G D L) as (u' & E & L' & P).
  exists u'. split; [exact E|]. split; [exact L'|]. split.
  - intros i j (Hi & Hj) B x y. rewrite !dof2_node. apply on_edge in B.
    repeat split; apply P; try assumption; lia.
  - intros i j c (Hi & Hj) B Hc. rewrite !dof2_node. apply P; try assumption. now rewrite <- on_edge.
Qed.

(** ** C20 *)
Definition affine_cell3 (V : env R) (t : Z -> R) (H : Z -> Z -> R) (u : arr R) (ex ey ez : Z) : Prop :=
  forall n c, (0 <= n < 8)%Z -> (0 <= c < 3)%Z -> aget u (cdof3 V ex ey ez n c) =
    Some (t c + H c 0%Z * (IZR (ex + cor_x n) * v_dx V) + H c 1%Z * (IZR (ey + cor_y n) * v_dy V)
              + H c 2%Z * (IZR (ez + cor_z n) * v_dz V)).
Definition affine_cell2 (V : env R) (t : Z -> R) (H : Z -> Z -> R) (u : arr R) (ex ey : Z) : Prop :=
  forall n c, (0 <= n < 4)%Z -> (0 <= c < 2)%Z -> aget u (cdof2 V ex ey n c) =
    Some (t c + H c 0%Z * (IZR (ex + cor_x n) * v_dx V) + H c 1%Z * (IZR (ey + cor_y n) * v_dy V)).
Theorem affine_strain3 V t H u ex ey ez g : body3 V -> full u (ndofs V) -> is_cell3 V ex ey ez ->
  affine_cell3 V t H u ex ey ez ->
  exists eps, get_strain3D V u ex ey ez g = Ok eps /\
    lget eps 0 = H 0%Z 0%Z /\ lget eps 1 = H 1%Z 1%Z /\ lget eps 2 = H 2%Z 2%Z /\
    lget eps 3 = H 0%Z 1%Z + H 1%Z 0%Z /\ lget eps 4 = H 0%Z 2%Z + H 2%Z 0%Z /\ lget eps 5 = H 1%Z 2%Z + H 2%Z 1%Z.
Proof.
  intros (S & G & D) F (Hx & Hy & Hz) A.
  destruct (strain3_affine V t H (val u) u ex ey ez g S D G (full_rep _ _ F) Hx Hy Hz) as (eps & E & P).
  { intros n c Hn Hc. unfold cmp3. rewrite <- dof3_node. unfold val. fold (cdof3 V ex ey ez n c). now rewrite (A n c Hn Hc). }
  exists eps. split; [exact E|]. repeat split; apply P; lia.
Qed.
Theorem affine_strain2 V t H u ex ey g : body2 V -> full u (ndofs V) -> is_cell2 V ex ey ->
  affine_cell2 V t H u ex ey ->
  exists eps, get_strain2D V u ex ey g = Ok eps /\
    lget eps 0 = H 0%Z 0%Z /\ lget eps 1 = H 1%Z 1%Z /\ lget eps 2 = H 0%Z 1%Z + H 1%Z 0%Z.
Proof.
  intros (S & G & D) F (Hx & Hy) A.
  destruct (strain2_affine V t H (val u) u ex ey g S D G (full_rep _ _ F) Hx Hy) as (eps & E & P).
  { intros n c Hn Hc. unfold cmp2. rewrite <- dof2_node. unfold val. fold (cdof2 V ex ey n c). now rewrite (A n c Hn Hc). }
  exists eps. split; [exact E|]. repeat split; apply P; lia.
Qed.
(** displacement component c inside the cell, at offsets X, Y, Z from its first corner *)
Definition inside3 V u ex ey ez c := interp3 V (fun n => val u (cdof3 V ex ey ez n c)).
Definition inside2 V u ex ey c := interp2 V (fun n => val u (cdof2 V ex ey n c)).
Theorem strain3_gradient V u ex ey ez g : body3 V -> full u (ndofs V) -> is_cell3 V ex ey ez -> (0 <= g < 8)%Z ->
  let X := gpos (v_dx V) g 0 in let Y := gpos (v_dy V) g 1 in let Zc := gpos (v_dz V) g 2 in
  exists eps D, get_strain3D V u ex ey ez g = Ok eps /\
    (forall c, (0 <= c < 3)%Z -> derivable_pt_lim (fun s => inside3 V u ex ey ez c s Y Zc) X (D c 0%Z) /\
       derivable_pt_lim (fun s => inside3 V u ex ey ez c X s Zc) Y (D c 1%Z) /\
       derivable_pt_lim (fun s => inside3 V u ex ey ez c X Y s) Zc (D c 2%Z)) /\
    lget eps 0 = D 0%Z 0%Z /\ lget eps 1 = D 1%Z 1%Z /\ lget eps 2 = D 2%Z 2%Z /\
    lget eps 3 = D 0%Z 1%Z + D 1%Z 0%Z /\ lget eps 4 = D 0%Z 2%Z + D 2%Z 0%Z /\ lget eps 5 = D 1%Z 2%Z + D 2%Z 1%Z.
Proof.
  intros (S & G & D) F Hc Hg X Y Zc. pose proof (full_rep _ _ F) as U. rewrite (ndofs3 V D) in U.
  pose proof (ge_px V G). pose proof (ge_py V G). pose proof (ge_pz V G D).
  set (f c n := val u (cdof3 V ex ey ez n c)).
  exists (strain3 V (val u) (ex, ey, ez) g), (fun c a => gr3 V g a (f c)).
  split; [apply strain3_ok; [exact U|now apply in_els3]|]. split.
  - intros c Hcc. split; [|split].
    + apply (gr3_interp V (f c) g 0); try lra; lia.
    + apply (gr3_interp V (f c) g 1); try lra; lia.
    + apply (gr3_interp V (f c) g 2); try lra; lia.
  - assert (Q : forall a c, gr3 V g a (at3 (cmp3 V (val u) c) (ex, ey, ez)) = gr3 V g a (f c)).
    { intros a c. unfold gr3. apply grad3_ext. intros n _. unfold f, at3, cmp3, cdof3. now rewrite dof3_node. }
    repeat split; rewrite strain3_str, str3_grad by lia; cbv beta zeta; cbn [Z.eqb Pos.eqb]; rewrite !Q; lra.
Qed.
Theorem strain2_gradient V u ex ey g : body2 V -> full u (ndofs V) -> is_cell2 V ex ey -> (0 <= g < 4)%Z ->
  let X := gpos (v_dx V) g 0 in let Y := gpos (v_dy V) g 1 in
  exists eps D, get_strain2D V u ex ey g = Ok eps /\
    (forall c, (0 <= c < 2)%Z -> derivable_pt_lim (fun s => inside2 V u ex ey c s Y) X (D c 0%Z) /\
       derivable_pt_lim (fun s => inside2 V u ex ey c X s) Y (D c 1%Z)) /\
    lget eps 0 = D 0%Z 0%Z /\ lget eps 1 = D 1%Z 1%Z /\ lget eps 2 = D 0%Z 1%Z + D 1%Z 0%Z.
Proof.
  intros (S & G & D) F Hc Hg X Y. pose proof (full_rep _ _ F) as U. rewrite (ndofs2 V S D) in U.
  pose proof (ge_px V G). pose proof (ge_py V G).
  set (f c n := val u (cdof2 V ex ey n c)).
  exists (strain2 V (val u) (ex, ey) g), (fun c a => gr2 V g a (f c)).
  split; [apply strain2_ok; [exact U|now apply in_els2]|]. split.
  - intros c Hcc. split.
    + apply (gr2_interp V (f c) g 0); try lra; lia.
    + apply (gr2_interp V (f c) g 1); try lra; lia.
  - assert (Q : forall a c, gr2 V g a (at2 (cmp2 V (val u) c) (ex, ey)) = gr2 V g a (f c)).
    { intros a c. unfold gr2. apply grad2_ext. intros n _. unfold f, at2, cmp2, cdof2. now rewrite dof2_node. }
    repeat split; rewrite strain2_str, str2_grad by lia; cbv beta zeta; cbn [Z.eqb Pos.eqb]; rewrite !Q; lra.
Qed.

(** ** C21-C24 *)
Theorem mean_strain2 V e u u' : body2 V -> full u (ndofs V) -> set_displ V e u = Ok u' ->
  exists eps, calc_ave_strain V u' = Ok eps /\ forall v, (0 <= v < 3)%Z -> lget eps v = lget e v.
Proof. intros (S & G & D) F E. exact (ave_strain2 V e u u' (val u) S G D (full_rep _ _ F) E). Qed.
Theorem mean_strain3 V e u u' : body3 V -> full u (ndofs V) -> set_displ V e u = Ok u' ->
  exists eps, calc_ave_strain V u' = Ok eps /\ forall v, (0 <= v < 6)%Z -> lget eps v = v_lz V * lget e v.
Proof. intros (S & G & D) F E. exact (ave_strain3 V e u u' (val u) S G D (full_rep _ _ F) E). Qed.
Theorem mean_strain3_refuted V e u u' v : body3 V -> v_lz V <> 1 -> full u (ndofs V) -> set_displ V e u = Ok u' ->
  (0 <= v < 6)%Z -> lget e v <> 0 ->
  exists eps, calc_ave_strain V u' = Ok eps /\ lget eps v <> lget e v.
Proof.
  intros B Hl F E Hv Ne. destruct (mean_strain3 V e u u' B F E) as (eps & Ee & P). exists eps. split; [exact Ee|].
  rewrite (P v Hv). intros Q. apply Ne. assert ((v_lz V - 1) * lget e v = 0) by lra.
  apply Rmult_integral in H. destruct H; lra.
Qed.

Theorem mean_stress2 V u vold vnew : body2 V -> full u (ndofs V) ->
  exists s sig, calc_ave_stress V u vold vnew = Ok (s, vnew) /\ stress_field2 V u sig /\
    forall v, (0 <= v < 3)%Z -> lget s v = quad_body2 V (fun ex ey g => sig ex ey g v) / area2 V.
Proof.
  intros (S & G & D) F. destruct (ave_stress2 V u (val u) vold vnew S G D (full_rep _ _ F)) as (s & E & P).
  exists s, (fun ex ey g v => gs2 V (val u) (ex, ey) g v). split; [exact E|]. split.
  - apply stress_field2_iff; auto.
  - intros v Hv. rewrite (P v Hv), (geom_vol2 V G). unfold area2. f_equal. symmetry. now apply quad_els2.
Qed.
Theorem mean_stress3 V u vold vnew : body3 V -> full u (ndofs V) -> vars_ok V vold vnew ->
  exists s vn sig, calc_ave_stress V u vold vnew = Ok (s, vn) /\ stress_field3 V u vold vnew sig /\
    forall v, (0 <= v < 6)%Z -> lget s v = v_lz V * (quad_body3 V (fun ex ey ez g => sig ex ey ez g v) / volume3 V).
Proof.
  intros (S & G & D) F W. destruct (ave_stress3 V u (val u) (val vold) vold vnew S G D (full_rep _ _ F) (vars_old _ _ _ W) (proj2 W)) as (s & vn & E & P).
  exists s, vn, (fun ex ey ez g v => gs3 V (val u) (val vold) (ex, ey, ez) g v). split; [exact E|]. split.
  - apply stress_field3_iff; auto.
  - intros v Hv. rewrite (P v Hv), (geom_vol3 V D G). unfold volume3. f_equal. f_equal. symmetry. now apply quad_els3.
Qed.
Theorem mean_stress3_refuted V u vold vnew s vn sig v : body3 V -> v_lz V <> 1 -> full u (ndofs V) -> vars_ok V vold vnew ->
  calc_ave_stress V u vold vnew = Ok (s, vn) -> stress_field3 V u vold vnew sig -> (0 <= v < 6)%Z -> lget s v <> 0 ->
  lget s v <> quad_body3 V (fun ex ey ez g => sig ex ey ez g v) / volume3 V.
Proof.
  intros B Hl F W E H Hv Ne. destruct (mean_stress3 V u vold vnew B F W) as (s1 & vn1 & sig1 & E1 & H1 & P1).
  rewrite E in E1. injection E1 as <- <-. destruct B as (S & G & D).
  rewrite (quad_els3 V (fun ex ey ez g => sig ex ey ez g v) (fun e g => gs3 V (val u) (val vold) e g v)).
  - pose proof (P1 v Hv) as Q. rewrite (quad_els3 V (fun ex ey ez g => sig1 ex ey ez g v) (fun e g => gs3 V (val u) (val vold) e g v)) in Q.
    + set (q := _ / volume3 V) in *. intros X. rewrite X in Q. assert ((v_lz V - 1) * q = 0) by lra.
      apply Rmult_integral in H0. destruct H0; [lra|]. apply Ne. lra.
    + intros. apply (proj1 (stress_field3_iff V u vold vnew sig1 S D F W) H1); assumption.
  - intros. apply (proj1 (stress_field3_iff V u vold vnew sig S D F W) H); assumption.
Qed.

Theorem uniform2 V m e u u' vold vnew : body2 V -> full u (ndofs V) -> admissible m ->
  (forall c, (0 <= c < ncells V)%Z -> mat_at V c = m) -> set_displ V e u = Ok u' ->
  exists s, calc_ave_stress V u' vold vnew = Ok (s, vnew) /\
    lget s 0 = m_lambda m * (lget e 0 + lget e 1) + 2 * m_mu m * lget e 0 /\
    lget s 1 = m_lambda m * (lget e 0 + lget e 1) + 2 * m_mu m * lget e 1 /\
    lget s 2 = m_mu m * lget e 2.
Proof.
  intros (S & G & D) F A M E. destruct (homogeneous2 V m e u u' (val u) vold vnew S G D (full_rep _ _ F) M E) as (s & Es & P).
  exists s. split; [exact Es|]. destruct A as [HE Hn1 Hn2 _ Hmu Hla]. rewrite Hmu, Hla.
  assert (dec 5 1 = (1 / 2 : R)) by apply dec51.
  repeat split; rewrite P by lia; rewrite stress2_ctan by lia; rewrite zr3; cbn [rsum]; unfold ctan2; cbn [Z.eqb Pos.eqb andb]; cbn -[IZR lget]; try rewrite H; field; lra.
Qed.
Theorem uniform3 V m e u u' vold vnew : body3 V -> full u (ndofs V) -> vars_ok V vold vnew -> linear V ->
  (forall c, (0 <= c < ncells V)%Z -> mat_at V c = m) -> set_displ V e u = Ok u' ->
  exists s vn, calc_ave_stress V u' vold vnew = Ok (s, vn) /\
    let t := m_lambda m * (lget e 0 + lget e 1 + lget e 2) in
    lget s 0 = v_lz V * (t + 2 * m_mu m * lget e 0) /\ lget s 1 = v_lz V * (t + 2 * m_mu m * lget e 1) /\
    lget s 2 = v_lz V * (t + 2 * m_mu m * lget e 2) /\ lget s 3 = v_lz V * (m_mu m * lget e 3) /\
    lget s 4 = v_lz V * (m_mu m * lget e 4) /\ lget s 5 = v_lz V * (m_mu m * lget e 5).
Proof.
  intros (S & G & D) F W L M E.
  destruct (homogeneous3 V m e u u' (val u) (val vold) vold vnew S G D (full_rep _ _ F) (vars_old _ _ _ W) (proj2 W) L M E) as (s & vn & Es & P).
  exists s, vn. split; [exact Es|]. intros t. unfold t.
  repeat split; rewrite P by lia; f_equal; rewrite lin_stress_ctan by lia; rewrite zr6; cbn [rsum]; unfold ctan3; cbn [Z.eqb Pos.eqb andb Z.ltb Z.compare Pos.compare Pos.compare_cont]; cbn -[IZR lget]; lra.
Qed.

(** ** C25, C26 *)
(** number of a cell *)
Definition cellno (V : env R) (ex ey ez : Z) : Z := (ez * ((v_nx V - 1) * (v_ny V - 1)) + ey * (v_nx V - 1) + ex)%Z.
Lemma cellno_ix3 V ex ey ez : cellno V ex ey ez = ix3 V (ex, ey, ez).
Proof. unfold cellno, ix3, glo_elem3D. ring. Qed.
Lemma cellno_ix2 V ex ey : cellno V ex ey 0 = ix2 V (ex, ey).
Proof. unfold cellno, ix2, glo_elem3D. ring. Qed.
(** quadratic form of an element matrix stored by rows, on the nodal values of the cell *)
Definition qform (n : Z) (K : list R) (x : Z -> R) : R :=
  rsum (zrange 0 n) (fun i => rsum (zrange 0 n) (fun j => x i * lget K (i * n + j) * x j)).
Lemma qform_alt n K x : qform n K x = rsum (zrange 0 n) (fun i => x i * rsum (zrange 0 n) (fun j => lget K (i * n + j) * x j)).
Proof. apply rsum_ext. intros i _. rewrite <- rsum_scal. apply rsum_ext. intros j _. ring. Qed.

Lemma elem_mat_lin3 V u vold vnew ex ey ez : sane V -> v_dim V = 3%Z -> full u (ndofs V) -> vars_ok V vold vnew -> is_cell3 V ex ey ez ->
  plastic_at V (cellno V ex ey ez) = false ->
  get_elem_mat3D V u vold vnew ex ey ez = Ok (emat3 V (val u) (val vold) (ex, ey, ez), vnew).
Proof.
  intros S D F W Hc P. rewrite cellno_ix3 in P. pose proof (full_rep _ _ F) as U. rewrite (ndofs3 V D) in U.
  rewrite (elem_mat3_ok V (val u) (val vold)); [|assumption..|exact (vars_old _ _ _ W)|now apply in_els3].
  unfold mst. rewrite P. reflexivity.
Qed.
Lemma elem_mat_2 V ex ey : sane V -> v_dim V = 2%Z -> is_cell2 V ex ey ->
  get_elem_mat2D V ex ey = Ok (emat2 V (ex, ey)).
Proof. intros S D Hc. apply elem_mat2_ok; [assumption..|now apply in_els2]. Qed.

Theorem elem_symmetric3 V u vold vnew ex ey ez : body3 V -> full u (ndofs V) -> vars_ok V vold vnew -> is_cell3 V ex ey ez ->
  plastic_at V (cellno V ex ey ez) = false ->
  exists K, get_elem_mat3D V u vold vnew ex ey ez = Ok (K, vnew) /\
    forall i j, (0 <= i < 24)%Z -> (0 <= j < 24)%Z -> lget K (i * 24 + j) = lget K (j * 24 + i).
Proof.
  intros (S & G & D) F W Hc P. eexists. split; [now apply elem_mat_lin3|]. intros i j Hi Hj.
  rewrite !emat3_entry by assumption. apply (sym_entry 6 (zrange 0 8) (B3 V) (tan3 V (val u) (val vold) (ex, ey, ez))).
  intros. unfold tan3. rewrite <- cellno_ix3, P. apply ctan3_sym.
Qed.
Theorem elem_symmetric2 V ex ey : body2 V -> is_cell2 V ex ey ->
  exists K, get_elem_mat2D V ex ey = Ok K /\
    forall i j, (0 <= i < 8)%Z -> (0 <= j < 8)%Z -> lget K (i * 8 + j) = lget K (j * 8 + i).
Proof.
  intros (S & G & D) Hc. eexists. split; [now apply elem_mat_2|]. intros i j Hi Hj. now apply elem2_sym.
Qed.

(** nodal values of a cell are those of an infinitesimal rigid motion *)
Definition rigid_cell3 (V : env R) (w : arr R) (ex ey ez : Z) : Prop := exists t0 t1 t2 w0 w1 w2, forall n, (0 <= n < 8)%Z ->
  let x := IZR (cor_x n) * v_dx V in let y := IZR (cor_y n) * v_dy V in let z := IZR (cor_z n) * v_dz V in
  val w (cdof3 V ex ey ez n 0) = t0 + w1 * z - w2 * y /\ val w (cdof3 V ex ey ez n 1) = t1 + w2 * x - w0 * z /\
  val w (cdof3 V ex ey ez n 2) = t2 + w0 * y - w1 * x.
Definition rigid_cell2 (V : env R) (w : arr R) (ex ey : Z) : Prop := exists t0 t1 r, forall n, (0 <= n < 4)%Z ->
  let x := IZR (cor_x n) * v_dx V in let y := IZR (cor_y n) * v_dy V in
  val w (cdof2 V ex ey n 0) = t0 - r * y /\ val w (cdof2 V ex ey n 1) = t1 + r * x.

Theorem elem_energy3 V u vold vnew ex ey ez w eps sig : body3 V -> full u (ndofs V) -> vars_ok V vold vnew -> is_cell3 V ex ey ez ->
  plastic_at V (cellno V ex ey ez) = false -> admissible (mat_at V (cellno V ex ey ez)) ->
  full w (ndofs V) -> strain_field3 V w eps -> stress_field3 V w vold vnew sig ->
  exists K, get_elem_mat3D V u vold vnew ex ey ez = Ok (K, vnew) /\
    let q := qform 24 K (fun i => val w (cdof3 V ex ey ez (i / 3) (i mod 3))) in
    q = rsum (zrange 0 8) (fun g => dot 6 (sig ex ey ez g) (eps ex ey ez g) * (v_dx V * v_dy V * v_dz V / 8)) /\
    0 <= q /\ (q = 0 <-> forall g v, (0 <= g < 8)%Z -> (0 <= v < 6)%Z -> eps ex ey ez g v = 0) /\
    (q = 0 <-> rigid_cell3 V w ex ey ez).
Proof.
  intros (S & G & D) F W Hc P A Fw He Hs. eexists. split; [now apply elem_mat_lin3|].
  pose proof (proj1 (strain_field3_iff V w eps Fw D) He) as Se. pose proof (proj1 (stress_field3_iff V w vold vnew sig S D Fw W) Hs) as Ss.
  pose proof (ge_px V G). pose proof (ge_py V G). pose proof (ge_pz V G D).
  set (e := (ex, ey, ez)). set (x := fun i => val w (cdof3 V ex ey ez (i / 3) (i mod 3))).
  set (K := emat3 V (val u) (val vold) e). cbv zeta.
  assert (Tn : forall g, tan3 V (val u) (val vold) e g = ctan3 (m_lambda (mat_at V (ix3 V e))) (m_mu (mat_at V (ix3 V e)))).
  { intros g. unfold tan3. unfold e. now rewrite <- cellno_ix3, P. }
  assert (Ls : forall g v, lstr3 V x g v = str3 V (val w) e g v).
  { intros g v. unfold lstr3, str3, mstrain. apply rsum_ext. intros i _. unfold x, e. now rewrite cdof3_addr. }
  assert (Q1 : qform 24 K x = rsum (zrange 0 8) (fun g => quad 6 (ctan3 (m_lambda (mat_at V (ix3 V e))) (m_mu (mat_at V (ix3 V e)))) (lstr3 V x g) * wg3 V)).
  { rewrite qform_alt.
    rewrite (elem_energy 24 6 (zrange 0 8) (B3 V) (wg3 V) (tan3 V (val u) (val vold) e) (fun i j => lget K (i * 24 + j)))
      by (intros; now apply emat3_entry).
    pose proof (work_quad [tt] 24 6 (zrange 0 8) (fun _ i => i) (B3 V) (wg3 V) (fun _ => tan3 V (val u) (val vold) e) x) as WQ.
    cbv zeta in WQ. rewrite WQ. cbn [rsum]. rewrite Rplus_0_r. apply rsum_ext. intros g _. rewrite Tn. reflexivity. }
  assert (Pq : forall y, 0 <= quad 6 (ctan3 (m_lambda (mat_at V (ix3 V e))) (m_mu (mat_at V (ix3 V e)))) y /\
    (quad 6 (ctan3 (m_lambda (mat_at V (ix3 V e))) (m_mu (mat_at V (ix3 V e)))) y = 0 -> forall v, (0 <= v < 6)%Z -> y v = 0)).
  { intros y. unfold e. rewrite <- cellno_ix3. apply quad3_pos; [now apply adm_mu|]. rewrite adm_bulk by assumption. now apply adm_k. }
  assert (Hw : 0 < wg3 V) by now apply wg3_pos.
  assert (Q0 : qform 24 K x = 0 <-> forall g v, (0 <= g < 8)%Z -> (0 <= v < 6)%Z -> lstr3 V x g v = 0).
  { rewrite Q1. split.
    - intros Z0 g v Hg Hv. apply (proj2 (Pq (lstr3 V x g))); [|exact Hv].
      pose proof (rsum_all0 _ _ (fun g _ => Rmult_le_pos _ _ (proj1 (Pq (lstr3 V x g))) (Rlt_le _ _ Hw)) Z0 g) as Zg. cbv beta in Zg.
      specialize (Zg ltac:(now apply in_zrange)). apply Rmult_integral in Zg. destruct Zg as [Zg|Zg]; [exact Zg|lra].
    - intros H3. apply rsum_zero. intros g Hg. apply in_zrange in Hg. replace (quad _ _ _) with 0; [ring|]. symmetry.
      unfold quad. apply rsum_zero. intros m Hm. apply in_zrange in Hm. rewrite (H3 g m Hg Hm). ring. }
  split; [|split; [|split]].
  - rewrite Q1. apply rsum_ext. intros g Hg. apply in_zrange in Hg. rewrite wg3_R.
    replace (quad _ _ _) with (dot 6 (sig ex ey ez g) (eps ex ey ez g)); [field|].
    unfold dot, quad. apply rsum_ext. intros m Hm. apply in_zrange in Hm. rewrite (Ss _ _ _ _ _ Hc Hg Hm), (Se _ _ _ _ _ Hc Hg Hm).
    fold e. rewrite Ls. f_equal. unfold gs3, sig3.
    replace (plastic_at V (ix3 V e)) with false by (unfold e; now rewrite <- cellno_ix3, P).
    rewrite lin_stress_ctan by assumption. apply rsum_ext. intros k Hk. apply in_zrange in Hk.
    rewrite Ls. now rewrite strain3_str.
  - rewrite Q1. apply rsum_nonneg. intros g _. apply Rmult_le_pos; [apply Pq|lra].
  - rewrite Q0. split; intros H3 g v Hg Hv; specialize (H3 g v Hg Hv); rewrite Ls in *; now rewrite (Se _ _ _ _ _ Hc Hg Hv) in *.
  - rewrite Q0, (strain_free3 V ltac:(lra) ltac:(lra) ltac:(lra) x). unfold rigid3, rigid_cell3, x.
    assert (X : forall n, (0 <= n < 8)%Z -> ((n * 3) / 3 = n /\ (n * 3) mod 3 = 0 /\ (n * 3 + 1) / 3 = n /\ (n * 3 + 1) mod 3 = 1 /\ (n * 3 + 2) / 3 = n /\ (n * 3 + 2) mod 3 = 2)%Z)
      by (intros; repeat split; Z.div_mod_to_equations; lia).
    split; intros (t0 & t1 & t2 & w0 & w1 & w2 & R); exists t0, t1, t2, w0, w1, w2; intros n Hn; specialize (R n Hn); cbv zeta in *;
      destruct (X n Hn) as (E1 & E2 & E3 & E4 & E5 & E6); rewrite ?E1, ?E2, ?E3, ?E4, ?E5, ?E6 in *; exact R.
Qed.
Theorem elem_energy2 V ex ey w eps sig : body2 V -> is_cell2 V ex ey -> admissible (mat_at V (cellno V ex ey 0)) ->
  full w (ndofs V) -> strain_field2 V w eps -> stress_field2 V w sig ->
  exists K, get_elem_mat2D V ex ey = Ok K /\
    let q := qform 8 K (fun i => val w (cdof2 V ex ey (i / 2) (i mod 2))) in
    q = rsum (zrange 0 4) (fun g => dot 3 (sig ex ey g) (eps ex ey g) * (v_dx V * v_dy V / 4)) /\
    0 <= q /\ (q = 0 <-> forall g v, (0 <= g < 4)%Z -> (0 <= v < 3)%Z -> eps ex ey g v = 0) /\
    (q = 0 <-> rigid_cell2 V w ex ey).
Proof.
  intros (S & G & D) Hc A Fw He Hs. eexists. split; [now apply elem_mat_2|].
  pose proof (proj1 (strain_field2_iff V w eps S Fw D) He) as Se. pose proof (proj1 (stress_field2_iff V w sig S D Fw) Hs) as Ss.
  pose proof (ge_px V G). pose proof (ge_py V G). rewrite cellno_ix2 in A.
  set (e := (ex, ey)) in *. set (x := fun i => val w (cdof2 V ex ey (i / 2) (i mod 2))).
  set (K := emat2 V e). cbv zeta.
  assert (Ls : forall g v, lstr2 V x g v = str2 V (val w) e g v).
  { intros g v. unfold lstr2, str2, mstrain. apply rsum_ext. intros i _. unfold x, e. now rewrite cdof2_addr. }
  assert (Q1 : qform 8 K x = rsum (zrange 0 4) (fun g => quad 3 (tan2 V e) (lstr2 V x g) * wg2 V)).
  { rewrite qform_alt.
    rewrite (elem_energy 8 3 (zrange 0 4) (B2 V) (wg2 V) (fun g => tan2 V e) (fun i j => lget K (i * 8 + j)))
      by (intros; now apply emat2_entry).
    pose proof (work_quad [tt] 8 3 (zrange 0 4) (fun _ i => i) (B2 V) (wg2 V) (fun _ g => tan2 V e) x) as WQ.
    cbv zeta in WQ. rewrite WQ. cbn [rsum]. rewrite Rplus_0_r. apply rsum_ext. intros g _. reflexivity. }
  assert (Pq : forall y, 0 <= quad 3 (tan2 V e) y /\ (quad 3 (tan2 V e) y = 0 -> forall v, (0 <= v < 3)%Z -> y v = 0)).
  { intros y. destruct A. now apply quad2_pos. }
  assert (Hw : 0 < wg2 V) by now apply wg2_pos.
  assert (Q0 : qform 8 K x = 0 <-> forall g v, (0 <= g < 4)%Z -> (0 <= v < 3)%Z -> lstr2 V x g v = 0).
  { rewrite Q1. split.
    - intros Z0 g v Hg Hv. apply (proj2 (Pq (lstr2 V x g))); [|exact Hv].
      pose proof (rsum_all0 _ _ (fun g _ => Rmult_le_pos _ _ (proj1 (Pq (lstr2 V x g))) (Rlt_le _ _ Hw)) Z0 g) as Zg. cbv beta in Zg.
      specialize (Zg ltac:(now apply in_zrange)). apply Rmult_integral in Zg. destruct Zg as [Zg|Zg]; [exact Zg|lra].
    - intros H3. apply rsum_zero. intros g Hg. apply in_zrange in Hg. replace (quad _ _ _) with 0; [ring|]. symmetry.
      unfold quad. apply rsum_zero. intros m Hm. apply in_zrange in Hm. rewrite (H3 g m Hg Hm). ring. }
  split; [|split; [|split]].
  - rewrite Q1. apply rsum_ext. intros g Hg. apply in_zrange in Hg. rewrite wg2_R.
    replace (quad _ _ _) with (dot 3 (sig ex ey g) (eps ex ey g)); [field|].
    unfold dot, quad. apply rsum_ext. intros m Hm. apply in_zrange in Hm. rewrite (Ss _ _ _ _ Hc Hg Hm), (Se _ _ _ _ Hc Hg Hm).
    fold e. rewrite Ls. f_equal. rewrite gs2_tsig by assumption. unfold tsig2. apply rsum_ext. intros k _. now rewrite Ls.
  - rewrite Q1. apply rsum_nonneg. intros g _. apply Rmult_le_pos; [apply Pq|lra].
  - rewrite Q0. split; intros H3 g v Hg Hv; specialize (H3 g v Hg Hv); rewrite Ls in *; now rewrite (Se _ _ _ _ Hc Hg Hv) in *.
  - rewrite Q0, (strain_free2 V ltac:(lra) ltac:(lra) x). unfold rigid2, rigid_cell2, x.
    assert (X : forall n, (0 <= n < 4)%Z -> ((n * 2) / 2 = n /\ (n * 2) mod 2 = 0 /\ (n * 2 + 1) / 2 = n /\ (n * 2 + 1) mod 2 = 1)%Z)
      by (intros; repeat split; Z.div_mod_to_equations; lia).
    split; intros (t0 & t1 & r & R); exists t0, t1, r; intros n Hn; specialize (R n Hn); cbv zeta in *;
      destruct (X n Hn) as (E1 & E2 & E3 & E4); rewrite ?E1, ?E2, ?E3, ?E4 in *; exact R.
Qed.

(** ** C27 *)
Lemma bnd_dof3 V i j k c : sane V -> v_dim V = 3%Z -> is_node3 V i j k -> (0 <= c < 3)%Z ->
  (bdof V (dof3 V i j k c) <-> on_face3 V i j k).
Proof. intros S D (Hi & Hj & Hk) Hc. rewrite dof3_node, on_face. now apply bdof3_node. Qed.
Lemma bnd_dof2 V i j c : sane V -> v_dim V = 2%Z -> is_node2 V i j -> (0 <= c < 2)%Z ->
  (bdof V (dof2 V i j c) <-> on_edge2 V i j).
Proof. intros S D (Hi & Hj) Hc. rewrite dof2_node, on_edge. now apply bdof2_node. Qed.
Lemma zero_van3 V w : sane V -> v_dim V = 3%Z -> zero_bnd_field3 V w -> van V (val w).
Proof.
  intros S D H r Hr B. rewrite (ndofs3 V D) in Hr. destruct (dof3_surj V S D r Hr) as (i & j & k & c & Hi & Hj & Hk & Hc & -> & Hb).
  apply Hb in B. rewrite <- dof3_node. unfold val. rewrite H; [reflexivity| | |exact Hc]; [unfold is_node3; tauto|now apply on_face].
Qed.
Lemma zero_van2 V w : sane V -> v_dim V = 2%Z -> zero_bnd_field2 V w -> van V (val w).
Proof.
  intros S D H r Hr B. rewrite (ndofs2 V S D) in Hr. destruct (dof2_surj V S D r Hr) as (i & j & c & Hi & Hj & Hc & -> & Hb).
  apply Hb in B. rewrite <- dof2_node. unfold val. rewrite H; [reflexivity| | |exact Hc]; [unfold is_node2; tauto|now apply on_edge].
Qed.

Theorem residual_spec3 V u vold vnew b : body3 V -> full u (ndofs V) -> vars_ok V vold vnew -> alen b = ndofs V ->
  exists b' nl vn nrm be sig, assembly_rhs V u vold vnew b = Ok (b', nl, vn, nrm) /\ full b' (ndofs V) /\
    (forall ex ey ez, is_cell3 V ex ey ez -> exists f v', get_elem_rhs3D V u vold vnew ex ey ez = Ok (be ex ey ez, f, v')) /\
    (forall i j k c, is_node3 V i j k -> (0 <= c < 3)%Z ->
       (on_face3 V i j k -> val b' (dof3 V i j k c) = 0) /\
       (~ on_face3 V i j k -> val b' (dof3 V i j k c) = -
          rsum (zrange 0 (v_nx V - 1)) (fun ex => rsum (zrange 0 (v_ny V - 1)) (fun ey => rsum (zrange 0 (v_nz V - 1)) (fun ez =>
          rsum (zrange 0 8) (fun n => rsum (zrange 0 3) (fun d =>
            if (cdof3 V ex ey ez n d =? dof3 V i j k c)%Z then lget (be ex ey ez) (n * 3 + d) else 0))))))) /\
    stress_field3 V u vold vnew sig /\
    (forall w eps, full w (ndofs V) -> zero_bnd_field3 V w -> strain_field3 V w eps ->
       rsum (zrange 0 (ndofs V)) (fun r => val b' r * val w r) =
       - quad_body3 V (fun ex ey ez g => dot 6 (sig ex ey ez g) (eps ex ey ez g))) /\
    nrm = sqrt (rsum (zrange 0 (ndofs V)) (fun r => val b' r * val b' r)).
Proof.
  intros (S & G & D) F W Lb. pose proof (full_rep _ _ F) as U. pose proof (vars_old _ _ _ W) as O.
  destruct (residual3 V (val u) (val vold) u vold vnew b S D U O (proj2 W) Lb) as (b' & nl & vn & nrm & E & Rb & N).
  assert (Vb : forall r, (0 <= r < ndofs V)%Z -> val b' r = balance3 V (val u) (val vold) r) by (intros r Hr; now apply (rep_val b' (ndofs V))).
  exists b', nl, vn, nrm, (fun ex ey ez => be3 V (val u) (val vold) (ex, ey, ez)), (fun ex ey ez g v => gs3 V (val u) (val vold) (ex, ey, ez) g v).
  split; [exact E|]. split; [now apply rep_full in Rb|]. split; [|split; [|split; [|split]]].
  - intros ex ey ez Hc. assert (He : In (ex, ey, ez) (els3 V)) by now apply in_els3. pose proof U as U'. rewrite (ndofs3 V D) in U'.
    destruct (run_stores_ok (cell_st V (val u) (val vold) (ex, ey, ez)) vnew) as (v' & Ev & _).
    { intros j x Hj. unfold cell_st in Hj. apply in_flat_map in Hj. destruct Hj as (g & Hg & Hj). apply in_zrange in Hg.
      apply (st3_range V (val u)) in Hj; try assumption. destruct W as (_ & Lv). lia. }
    do 2 eexists. pose proof (elem_rhs3_ok V (val u) (val vold) u vold vnew ex ey ez S D U' O He) as X. cbv zeta in X. rewrite X, Ev. reflexivity.
  - intros i j k c Hn Hc. pose proof (dof3_range V i j k c Hn Hc D) as Hr. pose proof (bnd_dof3 V i j k c S D Hn Hc) as Hb.
    rewrite (Vb _ Hr). unfold balance3. unfold bdof in Hb. split; intros B.
    + apply Hb in B. now rewrite B.
    + destruct bndb; [exfalso; now apply B, Hb|]. f_equal. unfold force3, mforce. rewrite rsum_els3.
      apply rsum_ext. intros ex Hx. apply rsum_ext. intros ey Hy. apply rsum_ext. intros ez Hz.
      change (zrange 0 24) with (zrange 0 (8 * 3)). rewrite (rsum_zrange_prod 8 3) by lia.
      apply rsum_ext. intros n Hnn. apply rsum_ext. intros d Hd. apply in_zrange in Hnn, Hd.
      rewrite <- cdof3_addr. replace ((n * 3 + d) / 3)%Z with n by (Z.div_mod_to_equations; lia).
      replace ((n * 3 + d) mod 3)%Z with d by (Z.div_mod_to_equations; lia).
      destruct (_ =? _)%Z; [|reflexivity]. rewrite be3_entry by lia. reflexivity.
  - apply stress_field3_iff; auto.
  - intros w eps Fw Zw Hw. pose proof (proj1 (strain_field3_iff V w eps Fw D) Hw) as Se.
    rewrite (work_body3 V _ eps (gs3 V (val u) (val vold)) (val w)); [|auto|exact Se].
    assert (VW : rsum (zrange 0 (ndofs V)) (fun a => val w a * force3 V (gs3 V (val u) (val vold)) a) = work3 V (gs3 V (val u) (val vold)) (val w)).
    { apply virtual_work. intros e i He Hi. rewrite (ndofs3 V D). now apply addr3_range. }
    rewrite <- VW.
    rewrite <- rsum_opp. apply rsum_ext. intros r Hr. apply in_zrange in Hr. rewrite (Vb r Hr). unfold balance3.
    destruct (bndb V (v_nz V) (r / v_dim V)) eqn:B; [|ring].
    rewrite (zero_van3 V w S D Zw r Hr B). ring.
  - rewrite N. f_equal. apply rsum_ext. intros r Hr. apply in_zrange in Hr. now rewrite (Vb r Hr).
Qed.
Theorem residual_spec2 V u vold vnew b : body2 V -> full u (ndofs V) -> alen b = ndofs V ->
  exists b' nrm be sig, assembly_rhs V u vold vnew b = Ok (b', false, vnew, nrm) /\ full b' (ndofs V) /\
    (forall ex ey, is_cell2 V ex ey -> exists f, get_elem_rhs2D V u ex ey = Ok (be ex ey, f)) /\
    (forall i j c, is_node2 V i j -> (0 <= c < 2)%Z ->
       (on_edge2 V i j -> val b' (dof2 V i j c) = 0) /\
       (~ on_edge2 V i j -> val b' (dof2 V i j c) = -
          rsum (zrange 0 (v_nx V - 1)) (fun ex => rsum (zrange 0 (v_ny V - 1)) (fun ey =>
          rsum (zrange 0 4) (fun n => rsum (zrange 0 2) (fun d =>
            if (cdof2 V ex ey n d =? dof2 V i j c)%Z then lget (be ex ey) (n * 2 + d) else 0)))))) /\
    stress_field2 V u sig /\
    (forall w eps, full w (ndofs V) -> zero_bnd_field2 V w -> strain_field2 V w eps ->
       rsum (zrange 0 (ndofs V)) (fun r => val b' r * val w r) =
       - quad_body2 V (fun ex ey g => dot 3 (sig ex ey g) (eps ex ey g))) /\
    nrm = sqrt (rsum (zrange 0 (ndofs V)) (fun r => val b' r * val b' r)).
Proof.
  intros (S & G & D) F Lb. pose proof (full_rep _ _ F) as U.
  destruct (residual2 V (val u) u vold vnew b S D U Lb) as (b' & nrm & E & Rb & N).
  assert (Vb : forall r, (0 <= r < ndofs V)%Z -> val b' r = balance2 V (val u) r) by (intros r Hr; now apply (rep_val b' (ndofs V))).
  exists b', nrm, (fun ex ey => be2 V (val u) (ex, ey)), (fun ex ey g v => gs2 V (val u) (ex, ey) g v).
  split; [exact E|]. split; [now apply rep_full in Rb|]. split; [|split; [|split; [|split]]].
  - intros ex ey Hc. assert (He : In (ex, ey) (els2 V)) by now apply in_els2. pose proof U as U'. rewrite (ndofs2 V S D) in U'.
    eexists. now apply elem_rhs2_ok.
  - intros i j c Hn Hc. pose proof (dof2_range V i j c S Hn Hc D) as Hr. pose proof (bnd_dof2 V i j c S D Hn Hc) as Hb.
    rewrite (Vb _ Hr). unfold balance2. unfold bdof in Hb. split; intros B.
    + apply Hb in B. now rewrite B.
    + destruct bndb; [exfalso; now apply B, Hb|]. f_equal. unfold force2, mforce. rewrite rsum_els2.
      apply rsum_ext. intros ex Hx. apply rsum_ext. intros ey Hy.
      change (zrange 0 8) with (zrange 0 (4 * 2)). rewrite (rsum_zrange_prod 4 2) by lia.
      apply rsum_ext. intros n Hnn. apply rsum_ext. intros d Hd. apply in_zrange in Hnn, Hd.
      rewrite <- cdof2_addr. replace ((n * 2 + d) / 2)%Z with n by (Z.div_mod_to_equations; lia).
      replace ((n * 2 + d) mod 2)%Z with d by (Z.div_mod_to_equations; lia).
      destruct (_ =? _)%Z; [|reflexivity]. rewrite be2_entry by lia. reflexivity.
  - apply stress_field2_iff; auto.
  - intros w eps Fw Zw Hw. pose proof (proj1 (strain_field2_iff V w eps S Fw D) Hw) as Se.
    rewrite (work_body2 V _ eps (gs2 V (val u)) (val w)); [|auto|exact Se].
    assert (VW : rsum (zrange 0 (ndofs V)) (fun a => val w a * force2 V (gs2 V (val u)) a) = work2 V (gs2 V (val u)) (val w)).
    { apply virtual_work. intros e i He Hi. rewrite (ndofs2 V S D). now apply addr2_range. }
    rewrite <- VW.
    rewrite <- rsum_opp. apply rsum_ext. intros r Hr. apply in_zrange in Hr. rewrite (Vb r Hr). unfold balance2.
    destruct (bndb V (v_nz V) (r / v_dim V)) eqn:B; [|ring].
    rewrite (zero_van2 V w S D Zw r Hr B). ring.
  - rewrite N. f_equal. apply rsum_ext. intros r Hr. apply in_zrange in Hr. now rewrite (Vb r Hr).
Qed.

(** ** C28 *)
Theorem newton_exact3 V u du u' vold vnew b0 b1 (A : ell R) : body3 V -> linear V -> adm V ->
  matrix3 3 (v_nx V) (v_ny V) (v_nz V) A -> full u (ndofs V) -> full du (ndofs V) -> zero_bnd_field3 V du ->
  rep u' (ndofs V) (fun i => val u i + val du i) -> vars_ok V vold vnew -> alen b0 = ndofs V -> alen b1 = ndofs V ->
  exists A' b b' v0 v1 nl0 nl1 n0 n1, assembly_mat V u vold vnew A = Ok (A', vnew) /\
    assembly_rhs V u vold vnew b0 = Ok (b, nl0, v0, n0) /\ assembly_rhs V u' vold vnew b1 = Ok (b', nl1, v1, n1) /\
    (forall r, (0 <= r < ndofs V)%Z -> val b' r = val b r - mul A' (val du) r) /\
    n1 = residual_norm A' (val b) (val du).
Proof.
  intros (S & G & D) L A0 M F Fd Zd U' W L0 L1.
  destruct (newton3_exact V (val u) (val vold) (val du) u u' vold vnew b0 b1 A S D G L A0 M (full_rep _ _ F) U' (vars_old _ _ _ W) (proj2 W) L0 L1 (zero_van3 V du S D Zd))
    as (A' & b & bf & b' & bf' & v0 & v1 & nl0 & nl1 & n0 & n1 & E1 & E2 & R2 & E3 & R3 & P & N).
  exists A', b, b', v0, v1, nl0, nl1, n0, n1. split; [exact E1|]. split; [exact E2|]. split; [exact E3|]. split.
  - intros r Hr. rewrite (rep_val b' (ndofs V) bf'), (rep_val b (ndofs V) bf) by assumption. now apply P.
  - rewrite N. unfold residual_norm. f_equal. apply rsum_ext. intros r Hr. apply in_zrange in Hr.
    assert (HN : e_nrow A' = ndofs V).
    { destruct (stiffness3_spd V (val u) (val vold) u vold vnew A S D G L A0 (full_rep _ _ F) (vars_old _ _ _ W) (proj2 W) M) as (A2 & EA & _ & Wf & _).
      rewrite E1 in EA. injection EA as <-. rewrite (ndofs3 V D). apply Wf. }
    rewrite (rep_val b (ndofs V) bf); [reflexivity|exact R2|]. now rewrite HN in Hr.
Qed.
Theorem newton_exact2 V u du u' vold vnew b0 b1 (A : ell R) : body2 V -> adm V ->
  matrix2 2 (v_nx V) (v_ny V) A -> full u (ndofs V) -> full du (ndofs V) -> zero_bnd_field2 V du ->
  rep u' (ndofs V) (fun i => val u i + val du i) -> alen b0 = ndofs V -> alen b1 = ndofs V ->
  exists A' b b' n0 n1, assembly_mat V u vold vnew A = Ok (A', vnew) /\
    assembly_rhs V u vold vnew b0 = Ok (b, false, vnew, n0) /\ assembly_rhs V u' vold vnew b1 = Ok (b', false, vnew, n1) /\
    (forall r, (0 <= r < ndofs V)%Z -> val b' r = val b r - mul A' (val du) r) /\
    n1 = residual_norm A' (val b) (val du).
Proof.
  intros (S & G & D) A0 M F Fd Zd U' L0 L1.
  destruct (newton2_exact V (val u) (val du) u u' vold vnew b0 b1 A S D G A0 M (full_rep _ _ F) U' L0 L1 (zero_van2 V du S D Zd))
    as (A' & b & bf & b' & bf' & n0 & n1 & E1 & E2 & R2 & E3 & R3 & P & N).
  exists A', b, b', n0, n1. split; [exact E1|]. split; [exact E2|]. split; [exact E3|]. split.
  - intros r Hr. rewrite (rep_val b' (ndofs V) bf'), (rep_val b (ndofs V) bf) by assumption. now apply P.
  - rewrite N. unfold residual_norm. f_equal. apply rsum_ext. intros r Hr. apply in_zrange in Hr.
    assert (HN : e_nrow A' = ndofs V).
    { destruct (stiffness2_spd V u vold vnew A S D G A0 M) as (A2 & EA & _ & Wf & _).
      rewrite E1 in EA. injection EA as <-. rewrite (ndofs2 V S D). apply Wf. }
    rewrite (rep_val b (ndofs V) bf); [reflexivity|exact R2|]. now rewrite HN in Hr.
Qed.

(** ** C29 *)
Definition zero_on3 (V : env R) (v : Z -> R) : Prop :=
  forall i j k c, is_node3 V i j k -> on_face3 V i j k -> (0 <= c < 3)%Z -> v (dof3 V i j k c) = 0.
Definition zero_on2 (V : env R) (v : Z -> R) : Prop :=
  forall i j c, is_node2 V i j -> on_edge2 V i j -> (0 <= c < 2)%Z -> v (dof2 V i j c) = 0.
Lemma zero_on_van3 V v : sane V -> v_dim V = 3%Z -> zero_on3 V v -> van V v.
Proof.
  intros S D H r Hr B. rewrite (ndofs3 V D) in Hr. destruct (dof3_surj V S D r Hr) as (i & j & k & c & Hi & Hj & Hk & Hc & -> & Hb).
  apply Hb in B. rewrite <- dof3_node. apply H; [unfold is_node3; tauto|now apply on_face|exact Hc].
Qed.
Lemma zero_on_van2 V v : sane V -> v_dim V = 2%Z -> zero_on2 V v -> van V v.
Proof.
  intros S D H r Hr B. rewrite (ndofs2 V S D) in Hr. destruct (dof2_surj V S D r Hr) as (i & j & c & Hi & Hj & Hc & -> & Hb).
  apply Hb in B. rewrite <- dof2_node. apply H; [unfold is_node2; tauto|now apply on_edge|exact Hc].
Qed.
Lemma not_fdof V r : ~ fdof V r -> bdof V r.
Proof. unfold fdof. destruct (bdof_dec V r); tauto. Qed.

Theorem stiffness_pd3 V u vold vnew (A : ell R) : body3 V -> linear V -> adm V ->
  full u (ndofs V) -> vars_ok V vold vnew -> matrix3 3 (v_nx V) (v_ny V) (v_nz V) A ->
  exists A', assembly_mat V u vold vnew A = Ok (A', vnew) /\
    (forall r c, (0 <= r < ndofs V)%Z -> (0 <= c < ndofs V)%Z -> dense A' r c = dense A' c r) /\
    (forall v, zero_on3 V v -> (exists r, (0 <= r < ndofs V)%Z /\ v r <> 0) ->
       0 < rsum (zrange 0 (ndofs V)) (fun r => v r * mul A' v r)) /\
    (forall x y, (forall r, (0 <= r < ndofs V)%Z -> mul A' x r = mul A' y r) -> forall r, (0 <= r < ndofs V)%Z -> x r = y r).
Proof.
  intros (S & G & D) L A0 F W M.
  destruct (stiffness3_spd V (val u) (val vold) u vold vnew A S D G L A0 (full_rep _ _ F) (vars_old _ _ _ W) (proj2 W) M) as (A' & E & _ & _ & Sp & Sy & _).
  exists A'. split; [exact E|]. split; [exact Sy|]. destruct Sp as (_ & _ & Pd & Inj). split; [|exact Inj].
  intros v Hv. apply Pd. intros r Hr B. exact (zero_on_van3 V v S D Hv r Hr (not_fdof V r B)).
Qed.
Theorem stiffness_pd2 V u vold vnew (A : ell R) : body2 V -> adm V -> matrix2 2 (v_nx V) (v_ny V) A ->
  exists A', assembly_mat V u vold vnew A = Ok (A', vnew) /\
    (forall i j c i' j' c', is_node2 V i j -> is_node2 V i' j' -> (0 <= c < 2)%Z -> (0 <= c' < 2)%Z -> ~ on_edge2 V i j -> ~ on_edge2 V i' j' ->
       dense A' (dof2 V i j c) (dof2 V i' j' c') = dense A' (dof2 V i' j' c') (dof2 V i j c)) /\
    (forall v, zero_on2 V v -> (exists r, (0 <= r < ndofs V)%Z /\ v r <> 0) ->
       0 < rsum (zrange 0 (ndofs V)) (fun r => v r * mul A' v r)) /\
    (forall x y, (forall r, (0 <= r < ndofs V)%Z -> mul A' x r = mul A' y r) -> forall r, (0 <= r < ndofs V)%Z -> x r = y r).
Proof.
  intros (S & G & D) A0 M.
  destruct (stiffness2_spd V u vold vnew A S D G A0 M) as (A' & E & _ & _ & Sp & _).
  exists A'. split; [exact E|]. destruct Sp as (_ & Sy & Pd & Inj). split; [|split; [|exact Inj]].
  - intros i j c i' j' c' Hn Hn' Hc Hc' B B'. apply Sy; try (now apply dof2_range); unfold fdof; rewrite bnd_dof2; assumption.
  - intros v Hv. apply Pd. intros r Hr B. exact (zero_on_van2 V v S D Hv r Hr (not_fdof V r B)).
Qed.

(** the linear solve of a Newton step on the assembled system converges *)
Theorem newton_solve3 V u vold vnew b0 du (A : ell R) sv : body3 V -> linear V -> adm V ->
  full u (ndofs V) -> vars_ok V vold vnew -> matrix3 3 (v_nx V) (v_ny V) (v_nz V) A -> alen b0 = ndofs V ->
  rep du (ndofs V) (fun _ => 0) -> 0 < s_min_tol sv -> (ndofs V < s_max_its sv)%Z ->
  exists A' b nl v0 n0 sv' du', assembly_rhs V u vold vnew b0 = Ok (b, nl, v0, n0) /\
    assembly_mat V u vold vnew A = Ok (A', vnew) /\
    ell_solve_cgpd_struct sv A' 3 3 (v_nx V * v_ny V * v_nz V) b du = Ok (sv', du') /\ full du' (ndofs V) /\ zero_bnd_field3 V du' /\
    (s_its sv' <= ndofs V)%Z /\ s_err sv' < s_min_tol sv /\ residual_norm A' (val b) (val du') < s_min_tol sv.
Proof.
  intros B3 L A0 F W M L0 Rd Ht Hi. pose proof B3 as (S & G & D).
  destruct (residual_spec3 V u vold vnew b0 B3 F W L0) as (b & nl & v0 & n0 & be & sig & Eb & Fb & _ & Hb & _).
  destruct (stiffness3_spd V (val u) (val vold) u vold vnew A S D G L A0 (full_rep _ _ F) (vars_old _ _ _ W) (proj2 W) M) as (A' & EA & _ & Wf & Sp & Sy & Dg & _).
  destruct Sp as (Id & Ss & Pd & _).
  pose proof (full_rep _ _ Fb) as Rb. rewrite (ndofs3 V D) in Rb, Rd, Hi.
  assert (I : forall r, (0 <= r < v_nx V * v_ny V * v_nz V * 3)%Z -> ~ fdof V r ->
     ident_row_at CGstruct3 A' 3 (v_nx V) (v_ny V) (v_nz V) r /\ val b r = 0 /\ 0 = 0).
  { intros r Hr Nf. rewrite <- (ndofs3 V D) in Hr. split; [|split; [|reflexivity]].
    - intros c Hc. apply Id; [exact Hr| |exact Nf]. rewrite (ndofs3 V D). exact Hc.
    - pose proof (not_fdof V r Nf) as B. rewrite (ndofs3 V D) in Hr.
      destruct (dof3_surj V S D r Hr) as (i & j & k & c & Hi' & Hj & Hk & Hc & -> & Hbb).
      rewrite <- dof3_node. apply Hb; [unfold is_node3; tauto|exact Hc|]. apply on_face. now apply Hbb. }
  destruct (cg_finite CGstruct3 A' 3 (v_nx V) (v_ny V) (v_nz V) b du (val b) (fun _ => 0) Wf Rb Rd (fdof V) I) with (sv := sv)
    as (sv' & du' & xf & Er & Rx & Hits & Herr & Hres); try assumption.
  - cbn [nodes]. intros r c Hr Hc. rewrite <- (ndofs3 V D) in Hr, Hc. apply Ss; [exact Hr|exact Hc].
  - cbn [nodes]. rewrite <- (ndofs3 V D). exact Pd.
  - cbn [nodes]. intros r Hr _. rewrite <- (ndofs3 V D) in Hr. now apply Dg.
  - destruct (cg_constrained CGstruct3 A' 3 (v_nx V) (v_ny V) (v_nz V) b du (val b) (fun _ => 0) Wf Rb Rd (fdof V) I sv) as (sv2 & du2 & xf2 & Er2 & Rx2 & Z2).
    rewrite Er in Er2. injection Er2 as <- <-. cbn [nodes] in *. rewrite <- (ndofs3 V D) in *.
    exists A', b, nl, v0, n0, sv', du'. split; [exact Eb|]. split; [exact EA|]. split; [exact Er|]. split; [now apply rep_full in Rx|]. split; [|split; [exact Hits|split; [exact Herr|]]].
    + intros i j k c Hn Hf Hc. pose proof (dof3_range V i j k c Hn Hc D) as Hr.
      rewrite (proj2 Rx2 _ Hr). f_equal. apply Z2; [exact Hr|]. intros Nf. apply Nf. now apply bnd_dof3.
    + replace (residual_norm A' (val b) (val du')) with (residual_norm A' (val b) xf); [exact Hres|].
      unfold residual_norm. f_equal. apply rsum_ext. intros r Hr. apply in_zrange in Hr.
      assert (Em : mul A' xf r = mul A' (val du') r).
      { unfold mul. apply rsum_ext. intros c Hc. apply in_zrange in Hc.
        rewrite (wf_nrow _ _ _ _ Wf), <- (ndofs3 V D) in Hc. now rewrite (rep_val du' (ndofs V) xf). }
      now rewrite Em.
Qed.
Theorem newton_solve2 V u vold vnew b0 du (A : ell R) sv : body2 V -> adm V ->
  full u (ndofs V) -> matrix2 2 (v_nx V) (v_ny V) A -> alen b0 = ndofs V ->
  rep du (ndofs V) (fun _ => 0) -> 0 < s_min_tol sv -> (ndofs V < s_max_its sv)%Z ->
  exists A' b n0 sv' du', assembly_rhs V u vold vnew b0 = Ok (b, false, vnew, n0) /\
    assembly_mat V u vold vnew A = Ok (A', vnew) /\
    ell_solve_cgpd_2D sv A' 2 (v_nx V) (v_ny V) b du = Ok (sv', du') /\ full du' (ndofs V) /\ zero_bnd_field2 V du' /\
    (s_its sv' <= ndofs V)%Z /\ s_err sv' < s_min_tol sv /\ residual_norm A' (val b) (val du') < s_min_tol sv.
Proof.
  intros B3 A0 F M L0 Rd Ht Hi. pose proof B3 as (S & G & D).
  destruct (residual_spec2 V u vold vnew b0 B3 F L0) as (b & n0 & be & sig & Eb & Fb & _ & Hb & _).
  destruct (stiffness2_spd V u vold vnew A S D G A0 M) as (A' & EA & _ & Wf & Sp & Dg & _).
  destruct Sp as (Id & Ss & Pd & _).
  pose proof (full_rep _ _ Fb) as Rb. rewrite (ndofs2 V S D) in Rb, Rd, Hi.
  assert (I : forall r, (0 <= r < v_nx V * v_ny V * 2)%Z -> ~ fdof V r ->
     ident_row_at CG2D A' 2 (v_nx V) (v_ny V) 1 r /\ val b r = 0 /\ 0 = 0).
  { intros r Hr Nf. rewrite <- (ndofs2 V S D) in Hr. split; [|split; [|reflexivity]].
    - intros c Hc. apply Id; [exact Hr| |exact Nf]. rewrite (ndofs2 V S D). exact Hc.
    - pose proof (not_fdof V r Nf) as B. rewrite (ndofs2 V S D) in Hr.
      destruct (dof2_surj V S D r Hr) as (i & j & c & Hi' & Hj & Hc & -> & Hbb).
      rewrite <- dof2_node. apply Hb; [unfold is_node2; tauto|exact Hc|]. apply on_edge. now apply Hbb. }
  destruct (cg_finite CG2D A' 2 (v_nx V) (v_ny V) 1 b du (val b) (fun _ => 0) Wf Rb Rd (fdof V) I) with (sv := sv)
    as (sv' & du' & xf & Er & Rx & Hits & Herr & Hres); try assumption.
  - cbn [nodes]. intros r c Hr Hc. rewrite <- (ndofs2 V S D) in Hr, Hc. apply Ss; [exact Hr|exact Hc].
  - cbn [nodes]. rewrite <- (ndofs2 V S D). exact Pd.
  - cbn [nodes]. intros r Hr _. rewrite <- (ndofs2 V S D) in Hr. now apply Dg.
  - destruct (cg_constrained CG2D A' 2 (v_nx V) (v_ny V) 1 b du (val b) (fun _ => 0) Wf Rb Rd (fdof V) I sv) as (sv2 & du2 & xf2 & Er2 & Rx2 & Z2).
    rewrite Er in Er2. injection Er2 as <- <-. cbn [nodes] in *. rewrite <- (ndofs2 V S D) in *.
    exists A', b, n0, sv', du'. split; [exact Eb|]. split; [exact EA|]. split; [exact Er|]. split; [now apply rep_full in Rx|]. split; [|split; [exact Hits|split; [exact Herr|]]].
    + intros i j c Hn Hf Hc. pose proof (dof2_range V i j c S Hn Hc D) as Hr.
      rewrite (proj2 Rx2 _ Hr). f_equal. apply Z2; [exact Hr|]. intros Nf. apply Nf. now apply bnd_dof2.
    + replace (residual_norm A' (val b) (val du')) with (residual_norm A' (val b) xf); [exact Hres|].
      unfold residual_norm. f_equal. apply rsum_ext. intros r Hr. apply in_zrange in Hr.
      assert (Em : mul A' xf r = mul A' (val du') r).
      { unfold mul. apply rsum_ext. intros c Hc. apply in_zrange in Hc.
        rewrite (wf_nrow _ _ _ _ Wf), <- (ndofs2 V S D) in Hc. now rewrite (rep_val du' (ndofs V) xf). }
      now rewrite Em.
Qed.
