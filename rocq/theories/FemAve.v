(** Averages of gradients: a discrete divergence theorem. *)
From Coq Require Import Reals Lra.
From Verif Require Import Base Scalar EllSpec EllModel AssemblyModel AsmPure AsmBnd FemGen.
Open Scope Z_scope.
Open Scope R_scope.

Lemma xg_val g c : xg g c = (match c with
  | 0%Z => if ((g =? 1) || (g =? 2) || (g =? 5) || (g =? 6))%Z then gpt else - gpt
  | 1%Z => if ((g =? 2) || (g =? 3) || (g =? 6) || (g =? 7))%Z then gpt else - gpt
  | _ => if (g <? 4)%Z then - gpt else gpt end : R).
Proof. reflexivity. Qed.

Definition gauss2 (dx dy wg : R) (c : Z) (f : Z -> R) : R :=
  rsum (zrange 0 4) (fun g => grad2 (xg g 0) (xg g 1) dx dy c f * wg).
Definition gauss3 (dx dy dz wg : R) (c : Z) (f : Z -> R) : R :=
  rsum (zrange 0 8) (fun g => grad3 (xg g 0) (xg g 1) (xg g 2) dx dy dz c f * wg).

(** one cell integrates its gradient exactly, whatever the Gauss coordinate *)
Lemma gauss2_0 dx dy f : dx <> 0 -> dy <> 0 ->
  gauss2 dx dy (1 / 4 * dx * dy) 0 f = dy / 2 * ((f 1%Z - f 0%Z) + (f 2%Z - f 3%Z)).
Proof.
  intros Hx Hy. unfold gauss2, grad2. rewrite zr4. cbn [rsum]. rewrite !xg_val. generalize (gpt : R); intros p.
  unfold dsh2; cbn. field; auto.
Qed.
Lemma gauss2_1 dx dy f : dx <> 0 -> dy <> 0 ->
  gauss2 dx dy (1 / 4 * dx * dy) 1 f = dx / 2 * ((f 3%Z - f 0%Z) + (f 2%Z - f 1%Z)).
Proof.
  intros Hx Hy. unfold gauss2, grad2. rewrite zr4. cbn [rsum]. rewrite !xg_val. generalize (gpt : R); intros p.
  unfold dsh2; cbn. field; auto.
Qed.

Lemma gauss3_0 dx dy dz f : dx <> 0 -> dy <> 0 -> dz <> 0 ->
  gauss3 dx dy dz (1 / 8 * dx * dy * dz) 0 f =
  dy * dz / 4 * ((f 1%Z - f 0%Z) + (f 2%Z - f 3%Z) + (f 5%Z - f 4%Z) + (f 6%Z - f 7%Z)).
Proof.
  intros Hx Hy Hz. unfold gauss3, grad3. rewrite zr8. cbn [rsum]. rewrite !xg_val. generalize (gpt : R); intros p.
  unfold dsh3; cbn. field; auto.
Qed.
Lemma gauss3_1 dx dy dz f : dx <> 0 -> dy <> 0 -> dz <> 0 ->
  gauss3 dx dy dz (1 / 8 * dx * dy * dz) 1 f =
  dx * dz / 4 * ((f 3%Z - f 0%Z) + (f 2%Z - f 1%Z) + (f 7%Z - f 4%Z) + (f 6%Z - f 5%Z)).
Proof.
  intros Hx Hy Hz. unfold gauss3, grad3. rewrite zr8. cbn [rsum]. rewrite !xg_val. generalize (gpt : R); intros p.
  unfold dsh3; cbn. field; auto.
Qed.
Lemma gauss3_2 dx dy dz f : dx <> 0 -> dy <> 0 -> dz <> 0 ->
  gauss3 dx dy dz (1 / 8 * dx * dy * dz) 2 f =
  dx * dy / 4 * ((f 4%Z - f 0%Z) + (f 5%Z - f 1%Z) + (f 6%Z - f 2%Z) + (f 7%Z - f 3%Z)).
Proof.
  intros Hx Hy Hz. unfold gauss3, grad3. rewrite zr8. cbn [rsum]. rewrite !xg_val. generalize (gpt : R); intros p.
  unfold dsh3; cbn. field; auto.
Qed.

(** ** Sums over the cells *)
Lemma rsum_els3 (V : env R) (f : Z * Z * Z -> R) :
  rsum (els3 V) f = rsum (zrange 0 (v_nx V - 1)) (fun ex => rsum (zrange 0 (v_ny V - 1)) (fun ey =>
    rsum (zrange 0 (v_nz V - 1)) (fun ez => f (ex, ey, ez)))).
Proof.
  unfold els3. rewrite rsum_flat_map. apply rsum_ext. intros ex _.
  rewrite rsum_flat_map. apply rsum_ext. intros ey _. now rewrite rsum_map.
Qed.
Lemma rsum_els2 (V : env R) (f : Z * Z -> R) :
  rsum (els2 V) f = rsum (zrange 0 (v_nx V - 1)) (fun ex => rsum (zrange 0 (v_ny V - 1)) (fun ey => f (ex, ey))).
Proof.
  unfold els2. rewrite rsum_flat_map. apply rsum_ext. intros ex _. now rewrite rsum_map.
Qed.

(** value at a corner of a cell of a function of the node's coordinates *)
Definition at3 (F : Z -> Z -> Z -> R) (e : Z * Z * Z) (n : Z) : R :=
  let '(ex, ey, ez) := e in F (ex + cor_x n)%Z (ey + cor_y n)%Z (ez + cor_z n)%Z.
Definition at2 (F : Z -> Z -> R) (e : Z * Z) (n : Z) : R :=
  let '(ex, ey) := e in F (ex + cor_x n)%Z (ey + cor_y n)%Z.

Ltac cors := repeat match goal with
  | |- context [cor_x ?n] => let r := eval compute in (cor_x n) in change (cor_x n) with r
  | |- context [cor_y ?n] => let r := eval compute in (cor_y n) in change (cor_y n) with r
  | |- context [cor_z ?n] => let r := eval compute in (cor_z n) in change (cor_z n) with r
  end.

Lemma cells_const3 (V : env R) (c : R) : sane V -> v_dim V = 3%Z ->
  rsum (els3 V) (fun _ => c) = IZR (v_nx V - 1) * IZR (v_ny V - 1) * IZR (v_nz V - 1) * c.
Proof.
  intros S D. pose proof (sa_nx V S). pose proof (sa_ny V S). pose proof (sa_dim V S).
  rewrite rsum_els3.
  rewrite (rsum_ext _ _ (fun _ => IZR (v_ny V - 1) * (IZR (v_nz V - 1) * c))).
  - rewrite rsum_zrange_const by lia. rewrite Z.sub_0_r. ring.
  - intros ex _. rewrite (rsum_ext _ _ (fun _ => IZR (v_nz V - 1) * c)).
    + rewrite rsum_zrange_const by lia. now rewrite Z.sub_0_r.
    + intros ey _. rewrite rsum_zrange_const by lia. now rewrite Z.sub_0_r.
Qed.
Lemma cells_const2 (V : env R) (c : R) : sane V ->
  rsum (els2 V) (fun _ => c) = IZR (v_nx V - 1) * IZR (v_ny V - 1) * c.
Proof.
  intros S. pose proof (sa_nx V S). pose proof (sa_ny V S).
  rewrite rsum_els2.
  rewrite (rsum_ext _ _ (fun _ => IZR (v_ny V - 1) * c)).
  - rewrite rsum_zrange_const by lia. rewrite Z.sub_0_r. ring.
  - intros ex _. rewrite rsum_zrange_const by lia. now rewrite Z.sub_0_r.
Qed.

(** telescoping in one axis: jumps across the box are all equal to D *)
Lemma tele3_0 (V : env R) F D : sane V -> v_dim V = 3%Z ->
  (forall j k, (0 <= j < v_ny V)%Z -> (0 <= k < v_nz V)%Z -> F (v_nx V - 1)%Z j k - F 0%Z j k = D) ->
  rsum (els3 V) (fun e => let f := at3 F e in
    (f 1%Z - f 0%Z) + (f 2%Z - f 3%Z) + (f 5%Z - f 4%Z) + (f 6%Z - f 7%Z))
  = IZR (v_ny V - 1) * IZR (v_nz V - 1) * (4 * D).
Proof.
  intros S Dm HD. pose proof (sa_nx V S). pose proof (sa_ny V S). pose proof (sa_dim V S).
  rewrite rsum_els3, rsum_swap.
  rewrite (rsum_ext _ _ (fun _ => IZR (v_nz V - 1) * (4 * D))).
  { rewrite rsum_zrange_const by lia. rewrite Z.sub_0_r. ring. }
  intros ey Hey. rewrite rsum_swap. rewrite (rsum_ext _ _ (fun _ => 4 * D)).
  { rewrite rsum_zrange_const by lia. now rewrite Z.sub_0_r. }
  intros ez Hez. apply in_zrange in Hey, Hez.
  set (h ex := F ex ey ez + F ex (ey + 1)%Z ez + F ex ey (ez + 1)%Z + F ex (ey + 1)%Z (ez + 1)%Z).
  rewrite (rsum_ext _ _ (fun ex => h (ex + 1)%Z - h ex)).
  - rewrite rsum_telescope by lia. unfold h.
    pose proof (HD ey ez). pose proof (HD (ey + 1)%Z ez). pose proof (HD ey (ez + 1)%Z).
    pose proof (HD (ey + 1)%Z (ez + 1)%Z). repeat match goal with H : _ -> _ |- _ => specialize (H ltac:(lia)) end; lra.
  - intros ex _. unfold h, at3. cors. rewrite ?Z.add_0_r. ring.
Qed.

Lemma tele3_1 (V : env R) F D : sane V -> v_dim V = 3%Z ->
  (forall i k, (0 <= i < v_nx V)%Z -> (0 <= k < v_nz V)%Z -> F i (v_ny V - 1)%Z k - F i 0%Z k = D) ->
  rsum (els3 V) (fun e => let f := at3 F e in
    (f 3%Z - f 0%Z) + (f 2%Z - f 1%Z) + (f 7%Z - f 4%Z) + (f 6%Z - f 5%Z))
  = IZR (v_nx V - 1) * IZR (v_nz V - 1) * (4 * D).
Proof.
  intros S Dm HD. pose proof (sa_nx V S). pose proof (sa_ny V S). pose proof (sa_dim V S).
  rewrite rsum_els3.
  rewrite (rsum_ext _ _ (fun _ => IZR (v_nz V - 1) * (4 * D))).
  { rewrite rsum_zrange_const by lia. rewrite Z.sub_0_r. ring. }
  intros ex Hex. rewrite rsum_swap. rewrite (rsum_ext _ _ (fun _ => 4 * D)).
  { rewrite rsum_zrange_const by lia. now rewrite Z.sub_0_r. }
  intros ez Hez. apply in_zrange in Hex, Hez.
  set (h ey := F ex ey ez + F (ex + 1)%Z ey ez + F ex ey (ez + 1)%Z + F (ex + 1)%Z ey (ez + 1)%Z).
  rewrite (rsum_ext _ _ (fun ey => h (ey + 1)%Z - h ey)).
  - rewrite rsum_telescope by lia. unfold h.
    pose proof (HD ex ez). pose proof (HD (ex + 1)%Z ez). pose proof (HD ex (ez + 1)%Z).
    pose proof (HD (ex + 1)%Z (ez + 1)%Z). repeat match goal with H : _ -> _ |- _ => specialize (H ltac:(lia)) end; lra.
  - intros ey _. unfold h, at3. cors. rewrite ?Z.add_0_r. ring.
Qed.

Lemma tele3_2 (V : env R) F D : sane V -> v_dim V = 3%Z ->
  (forall i j, (0 <= i < v_nx V)%Z -> (0 <= j < v_ny V)%Z -> F i j (v_nz V - 1)%Z - F i j 0%Z = D) ->
  rsum (els3 V) (fun e => let f := at3 F e in
    (f 4%Z - f 0%Z) + (f 5%Z - f 1%Z) + (f 6%Z - f 2%Z) + (f 7%Z - f 3%Z))
  = IZR (v_nx V - 1) * IZR (v_ny V - 1) * (4 * D).
Proof.
  intros S Dm HD. pose proof (sa_nx V S). pose proof (sa_ny V S). pose proof (sa_dim V S).
  rewrite rsum_els3.
  rewrite (rsum_ext _ _ (fun _ => IZR (v_ny V - 1) * (4 * D))).
  { rewrite rsum_zrange_const by lia. rewrite Z.sub_0_r. ring. }
  intros ex Hex. rewrite (rsum_ext _ _ (fun _ => 4 * D)).
  { rewrite rsum_zrange_const by lia. now rewrite Z.sub_0_r. }
  intros ey Hey. apply in_zrange in Hex, Hey.
  set (h ez := F ex ey ez + F (ex + 1)%Z ey ez + F ex (ey + 1)%Z ez + F (ex + 1)%Z (ey + 1)%Z ez).
  rewrite (rsum_ext _ _ (fun ez => h (ez + 1)%Z - h ez)).
  - rewrite rsum_telescope by lia. unfold h.
    pose proof (HD ex ey). pose proof (HD (ex + 1)%Z ey). pose proof (HD ex (ey + 1)%Z).
    pose proof (HD (ex + 1)%Z (ey + 1)%Z). repeat match goal with H : _ -> _ |- _ => specialize (H ltac:(lia)) end; lra.
  - intros ez _. unfold h, at3. cors. rewrite ?Z.add_0_r. ring.
Qed.

Lemma tele2_0 (V : env R) F D : sane V ->
  (forall j, (0 <= j < v_ny V)%Z -> F (v_nx V - 1)%Z j - F 0%Z j = D) ->
  rsum (els2 V) (fun e => let f := at2 F e in (f 1%Z - f 0%Z) + (f 2%Z - f 3%Z))
  = IZR (v_ny V - 1) * (2 * D).
Proof.
  intros S HD. pose proof (sa_nx V S). pose proof (sa_ny V S).
  rewrite rsum_els2, rsum_swap.
  rewrite (rsum_ext _ _ (fun _ => 2 * D)).
  { rewrite rsum_zrange_const by lia. now rewrite Z.sub_0_r. }
  intros ey Hey. apply in_zrange in Hey.
  set (h ex := F ex ey + F ex (ey + 1)%Z).
  rewrite (rsum_ext _ _ (fun ex => h (ex + 1)%Z - h ex)).
  - rewrite rsum_telescope by lia. unfold h.
    pose proof (HD ey). pose proof (HD (ey + 1)%Z).
    repeat match goal with H : _ -> _ |- _ => specialize (H ltac:(lia)) end; lra.
  - intros ex _. unfold h, at2. cors. rewrite ?Z.add_0_r. ring.
Qed.
Lemma tele2_1 (V : env R) F D : sane V ->
  (forall i, (0 <= i < v_nx V)%Z -> F i (v_ny V - 1)%Z - F i 0%Z = D) ->
  rsum (els2 V) (fun e => let f := at2 F e in (f 3%Z - f 0%Z) + (f 2%Z - f 1%Z))
  = IZR (v_nx V - 1) * (2 * D).
Proof.
  intros S HD. pose proof (sa_nx V S). pose proof (sa_ny V S).
  rewrite rsum_els2.
  rewrite (rsum_ext _ _ (fun _ => 2 * D)).
  { rewrite rsum_zrange_const by lia. now rewrite Z.sub_0_r. }
  intros ex Hex. apply in_zrange in Hex.
  set (h ey := F ex ey + F (ex + 1)%Z ey).
  rewrite (rsum_ext _ _ (fun ey => h (ey + 1)%Z - h ey)).
  - rewrite rsum_telescope by lia. unfold h.
    pose proof (HD ex). pose proof (HD (ex + 1)%Z).
    repeat match goal with H : _ -> _ |- _ => specialize (H ltac:(lia)) end; lra.
  - intros ey _. unfold h, at2. cors. rewrite ?Z.add_0_r. ring.
Qed.

(** ** Average strain of a field with affine boundary values *)
Lemma wg2_R (V : env R) : wg2 V = 1 / 4 * v_dx V * v_dy V.
Proof. unfold wg2, dec. cbn [omul odiv ofZ ROps]. replace (IZR 25 / IZR (10 ^ 2)) with (1 / 4); [reflexivity|]. simpl. lra. Qed.
Lemma wg3_R (V : env R) : wg3 V = 1 / 8 * v_dx V * v_dy V * v_dz V.
Proof. reflexivity. Qed.

Definition addr3 (V : env R) (e : Z * Z * Z) (i : Z) : Z := let '(ex, ey, ez) := e in
  (corner3 (v_nx V) (v_ny V) ex ey ez (i / 3) * 3 + i mod 3)%Z.
Definition addr2 (V : env R) (e : Z * Z) (i : Z) : Z := let '(ex, ey) := e in
  (corner2 (v_nx V) (v_ny V) ex ey (i / 2) * 2 + i mod 2)%Z.
Definition str3 (V : env R) := mstrain 24 (addr3 V) (B3 V).
Definition str2 (V : env R) := mstrain 8 (addr2 V) (B2 V).

Lemma strain3_str V w e g v : (0 <= v < 6)%Z -> lget (strain3 V w e g) v = str3 V w e g v.
Proof.
  intros H. unfold strain3. rewrite strain_of_R by assumption. apply rsum_ext. intros i Hi.
  apply in_zrange in Hi. rewrite lget_ltab by assumption. destruct e as [[ex ey] ez]. reflexivity.
Qed.
Lemma strain2_str V w e g v : (0 <= v < 3)%Z -> lget (strain2 V w e g) v = str2 V w e g v.
Proof.
  intros H. unfold strain2. rewrite strain_of_R by assumption. apply rsum_ext. intros i Hi.
  apply in_zrange in Hi. rewrite lget_ltab by assumption. destruct e as [ex ey]. reflexivity.
Qed.

(** nodal values of a component as a function of the coordinates *)
Definition cmp3 (V : env R) (w : Z -> R) (c i j k : Z) : R := w (node (v_nx V) (v_ny V) i j k * 3 + c)%Z.
Definition cmp2 (V : env R) (w : Z -> R) (c i j : Z) : R := w (node (v_nx V) (v_ny V) i j 0 * 2 + c)%Z.

Definition gr3 (V : env R) (g c : Z) := grad3 (xg g 0) (xg g 1) (xg g 2) (v_dx V) (v_dy V) (v_dz V) c.
Definition gr2 (V : env R) (g c : Z) := grad2 (xg g 0) (xg g 1) (v_dx V) (v_dy V) c.

Lemma grad3_ext x0 x1 x2 dx dy dz c f h : (forall n, (0 <= n < 8)%Z -> f n = h n) ->
  grad3 x0 x1 x2 dx dy dz c f = grad3 x0 x1 x2 dx dy dz c h.
Proof. intros H. apply rsum_ext. intros n Hn. apply in_zrange in Hn. now rewrite H. Qed.
Lemma grad2_ext x0 x1 dx dy c f h : (forall n, (0 <= n < 4)%Z -> f n = h n) ->
  grad2 x0 x1 dx dy c f = grad2 x0 x1 dx dy c h.
Proof. intros H. apply rsum_ext. intros n Hn. apply in_zrange in Hn. now rewrite H. Qed.

Lemma str3_grad V w e g v : (0 <= v < 6)%Z ->
  str3 V w e g v =
  let G c d := gr3 V g c (at3 (cmp3 V w d) e) in
  if (v =? 0)%Z then G 0%Z 0%Z else if (v =? 1)%Z then G 1%Z 1%Z else if (v =? 2)%Z then G 2%Z 2%Z
  else if (v =? 3)%Z then G 1%Z 0%Z + G 0%Z 1%Z
  else if (v =? 4)%Z then G 2%Z 0%Z + G 0%Z 2%Z
  else G 2%Z 1%Z + G 1%Z 2%Z.
Proof.
  intros H. destruct e as [[ex ey] ez]. unfold str3, mstrain, B3.
  rewrite (bmat3_strain _ _ _ _ _ _ v (fun i => w (addr3 V (ex, ey, ez) i)) H). cbv beta zeta.
  assert (X : forall c k, (0 <= k < 3)%Z ->
    grad3 (xg g 0) (xg g 1) (xg g 2) (v_dx V) (v_dy V) (v_dz V) c
      (fun n => w (addr3 V (ex, ey, ez) (n * 3 + k)%Z)) = gr3 V g c (at3 (cmp3 V w k) (ex, ey, ez))).
  { intros c k Hk. apply grad3_ext. intros n Hn. unfold addr3, at3, cmp3, corner3.
    replace ((n * 3 + k) / 3)%Z with n by (rewrite Z.div_add_l, Z.div_small by lia; lia).
    replace ((n * 3 + k) mod 3)%Z with k by (rewrite Z.add_comm, Z.mod_add, Z.mod_small by lia; lia).
    reflexivity. }
  rewrite !X by lia. reflexivity.
Qed.

Lemma str2_grad V w e g v : (0 <= v < 3)%Z ->
  str2 V w e g v =
  let G c d := gr2 V g c (at2 (cmp2 V w d) e) in
  if (v =? 0)%Z then G 0%Z 0%Z else if (v =? 1)%Z then G 1%Z 1%Z
  else G 1%Z 0%Z + G 0%Z 1%Z.
Proof.
  intros H. destruct e as [ex ey]. unfold str2, mstrain, B2.
  rewrite (bmat2_strain _ _ _ _ v (fun i => w (addr2 V (ex, ey) i)) H). cbv beta zeta.
  assert (X : forall c k, (0 <= k < 2)%Z ->
    grad2 (xg g 0) (xg g 1) (v_dx V) (v_dy V) c
      (fun n => w (addr2 V (ex, ey) (n * 2 + k)%Z)) = gr2 V g c (at2 (cmp2 V w k) (ex, ey))).
  { intros c k Hk. apply grad2_ext. intros n Hn. unfold addr2, at2, cmp2, corner2.
    replace ((n * 2 + k) / 2)%Z with n by (rewrite Z.div_add_l, Z.div_small by lia; lia).
    replace ((n * 2 + k) mod 2)%Z with k by (rewrite Z.add_comm, Z.mod_add, Z.mod_small by lia; lia).
    reflexivity. }
  rewrite !X by lia. reflexivity.
Qed.

(** affine boundary values *)
Definition bnd_affine3 (V : env R) (e0 e1 e2 e3 e4 e5 : R) (w : Z -> R) : Prop :=
  forall i j k c, (0 <= i < v_nx V)%Z -> (0 <= j < v_ny V)%Z -> (0 <= k < v_nz V)%Z -> (0 <= c < 3)%Z ->
    bnd3 (v_nx V) (v_ny V) (v_nz V) i j k ->
    cmp3 V w c i j k = affine3 e0 e1 e2 e3 e4 e5 (IZR i * v_dx V) (IZR j * v_dy V) (IZR k * v_dz V) c.
Definition bnd_affine2 (V : env R) (e0 e1 e2 : R) (w : Z -> R) : Prop :=
  forall i j c, (0 <= i < v_nx V)%Z -> (0 <= j < v_ny V)%Z -> (0 <= c < 2)%Z ->
    bnd2 (v_nx V) (v_ny V) i j ->
    cmp2 V w c i j = affine2 e0 e1 e2 (IZR i * v_dx V) (IZR j * v_dy V) c.

Definition voigt6 (e0 e1 e2 e3 e4 e5 : R) (v : Z) : R :=
  if (v =? 0)%Z then e0 else if (v =? 1)%Z then e1 else if (v =? 2)%Z then e2
  else if (v =? 3)%Z then e3 else if (v =? 4)%Z then e4 else e5.
Definition voigt3 (e0 e1 e2 : R) (v : Z) : R :=
  if (v =? 0)%Z then e0 else if (v =? 1)%Z then e1 else e2.

(** displacement gradient of the affine field: derivative along c of component d *)
Definition dgrad3 (e0 e1 e2 e3 e4 e5 : R) (c d : Z) : R :=
  let ex (d : Z) := if (d =? 0)%Z then e0 else if (d =? 1)%Z then e3 / 2 else e4 / 2 in
  let ey (d : Z) := if (d =? 0)%Z then e3 / 2 else if (d =? 1)%Z then e1 else e5 / 2 in
  let ez (d : Z) := if (d =? 0)%Z then e4 / 2 else if (d =? 1)%Z then e5 / 2 else e2 in
  if (c =? 0)%Z then ex d else if (c =? 1)%Z then ey d else ez d.
Definition dgrad2 (e0 e1 e2 : R) (c d : Z) : R :=
  if (c =? 0)%Z then (if (d =? 0)%Z then e0 else e2 / 2) else (if (d =? 0)%Z then e2 / 2 else e1).

Definition vol3 (V : env R) : R :=
  IZR (v_nx V - 1) * v_dx V * (IZR (v_ny V - 1) * v_dy V) * (IZR (v_nz V - 1) * v_dz V).
Definition vol2 (V : env R) : R := IZR (v_nx V - 1) * v_dx V * (IZR (v_ny V - 1) * v_dy V).

Lemma grad_ave3 (V : env R) e0 e1 e2 e3 e4 e5 w c d : sane V -> v_dim V = 3%Z -> geom V ->
  bnd_affine3 V e0 e1 e2 e3 e4 e5 w -> (0 <= c < 3)%Z -> (0 <= d < 3)%Z ->
  rsum (els3 V) (fun e => rsum (zrange 0 8) (fun g => gr3 V g c (at3 (cmp3 V w d) e) * wg3 V))
  = vol3 V * dgrad3 e0 e1 e2 e3 e4 e5 c d.
Proof.
  intros S D G H Hc Hd.
  pose proof (sa_nx V S) as Hx. pose proof (sa_ny V S) as Hy. pose proof (sa_dim V S) as Hz.
  pose proof (ge_px V G) as Px. pose proof (ge_py V G) as Py. pose proof (ge_pz V G D) as Pz.
  rewrite (rsum_ext _ _ (fun e => gauss3 (v_dx V) (v_dy V) (v_dz V)
     (1 / 8 * v_dx V * v_dy V * v_dz V) c (at3 (cmp3 V w d) e))).
  2:{ intros e _. rewrite wg3_R. reflexivity. }
  assert (A : forall i j k, (0 <= i < v_nx V)%Z -> (0 <= j < v_ny V)%Z -> (0 <= k < v_nz V)%Z ->
     bnd3 (v_nx V) (v_ny V) (v_nz V) i j k -> cmp3 V w d i j k =
     IZR i * v_dx V * dgrad3 e0 e1 e2 e3 e4 e5 0 d + IZR j * v_dy V * dgrad3 e0 e1 e2 e3 e4 e5 1 d
     + IZR k * v_dz V * dgrad3 e0 e1 e2 e3 e4 e5 2 d).
  { intros i j k Hi Hj Hk Hb. rewrite (H i j k d Hi Hj Hk Hd Hb).
    assert (C : d = 0%Z \/ d = 1%Z \/ d = 2%Z) by lia.
    destruct C as [->|[->| ->]]; unfold affine3, dgrad3; cbn [Z.eqb Pos.eqb]; field. }
  unfold bnd3, on_bnd in A.
  assert (C : c = 0%Z \/ c = 1%Z \/ c = 2%Z) by lia.
  destruct C as [->|[->| ->]].
  - rewrite (rsum_ext _ _ (fun e => v_dy V * v_dz V / 4 * (let f := at3 (cmp3 V w d) e in
       (f 1%Z - f 0%Z) + (f 2%Z - f 3%Z) + (f 5%Z - f 4%Z) + (f 6%Z - f 7%Z)))).
    2:{ intros e _. apply gauss3_0; lra. }
    rewrite rsum_scal, (tele3_0 V _ (IZR (v_nx V - 1) * v_dx V * dgrad3 e0 e1 e2 e3 e4 e5 0 d)); try assumption.
    + unfold vol3. field.
    + intros j k Hj Hk. rewrite !A by lia. ring.
  - rewrite (rsum_ext _ _ (fun e => v_dx V * v_dz V / 4 * (let f := at3 (cmp3 V w d) e in
       (f 3%Z - f 0%Z) + (f 2%Z - f 1%Z) + (f 7%Z - f 4%Z) + (f 6%Z - f 5%Z)))).
    2:{ intros e _. apply gauss3_1; lra. }
    rewrite rsum_scal, (tele3_1 V _ (IZR (v_ny V - 1) * v_dy V * dgrad3 e0 e1 e2 e3 e4 e5 1 d)); try assumption.
    + unfold vol3. field.
    + intros i k Hi Hk. rewrite !A by lia. ring.
  - rewrite (rsum_ext _ _ (fun e => v_dx V * v_dy V / 4 * (let f := at3 (cmp3 V w d) e in
       (f 4%Z - f 0%Z) + (f 5%Z - f 1%Z) + (f 6%Z - f 2%Z) + (f 7%Z - f 3%Z)))).
    2:{ intros e _. apply gauss3_2; lra. }
    rewrite rsum_scal, (tele3_2 V _ (IZR (v_nz V - 1) * v_dz V * dgrad3 e0 e1 e2 e3 e4 e5 2 d)); try assumption.
    + unfold vol3. field.
    + intros i j Hi Hj. rewrite !A by lia. ring.
Qed.

Lemma grad_ave2 (V : env R) e0 e1 e2 w c d : sane V -> geom V ->
  bnd_affine2 V e0 e1 e2 w -> (0 <= c < 2)%Z -> (0 <= d < 2)%Z ->
  rsum (els2 V) (fun e => rsum (zrange 0 4) (fun g => gr2 V g c (at2 (cmp2 V w d) e) * wg2 V))
  = vol2 V * dgrad2 e0 e1 e2 c d.
Proof.
  intros S G H Hc Hd.
  pose proof (sa_nx V S) as Hx. pose proof (sa_ny V S) as Hy.
  pose proof (ge_px V G) as Px. pose proof (ge_py V G) as Py.
  rewrite (rsum_ext _ _ (fun e => gauss2 (v_dx V) (v_dy V)
     (1 / 4 * v_dx V * v_dy V) c (at2 (cmp2 V w d) e))).
  2:{ intros e _. rewrite wg2_R. reflexivity. }
  assert (A : forall i j, (0 <= i < v_nx V)%Z -> (0 <= j < v_ny V)%Z ->
     bnd2 (v_nx V) (v_ny V) i j -> cmp2 V w d i j =
     IZR i * v_dx V * dgrad2 e0 e1 e2 0 d + IZR j * v_dy V * dgrad2 e0 e1 e2 1 d).
  { intros i j Hi Hj Hb. rewrite (H i j d Hi Hj Hd Hb).
    assert (C : d = 0%Z \/ d = 1%Z) by lia.
    destruct C as [->| ->]; unfold affine2, dgrad2; cbn [Z.eqb Pos.eqb]; field. }
  unfold bnd2, on_bnd in A.
  assert (C : c = 0%Z \/ c = 1%Z) by lia.
  destruct C as [->| ->].
  - rewrite (rsum_ext _ _ (fun e => v_dy V / 2 * (let f := at2 (cmp2 V w d) e in
       (f 1%Z - f 0%Z) + (f 2%Z - f 3%Z)))).
    2:{ intros e _. apply gauss2_0; lra. }
    rewrite rsum_scal, (tele2_0 V _ (IZR (v_nx V - 1) * v_dx V * dgrad2 e0 e1 e2 0 d)); try assumption.
    + unfold vol2. field.
    + intros j Hj. rewrite !A by lia. ring.
  - rewrite (rsum_ext _ _ (fun e => v_dx V / 2 * (let f := at2 (cmp2 V w d) e in
       (f 3%Z - f 0%Z) + (f 2%Z - f 1%Z)))).
    2:{ intros e _. apply gauss2_1; lra. }
    rewrite rsum_scal, (tele2_1 V _ (IZR (v_ny V - 1) * v_dy V * dgrad2 e0 e1 e2 1 d)); try assumption.
    + unfold vol2. field.
    + intros i Hi. rewrite !A by lia. ring.
Qed.

Lemma rsum2_plus_w {A B} (l : list A) (l' : list B) f h wg :
  rsum l (fun a => rsum l' (fun b => (f a b + h a b) * wg)) =
  rsum l (fun a => rsum l' (fun b => f a b * wg)) + rsum l (fun a => rsum l' (fun b => h a b * wg)).
Proof.
  rewrite <- rsum_plus. apply rsum_ext. intros a _. rewrite <- rsum_plus. apply rsum_ext. intros b _. ring.
Qed.

Lemma grad_ave3_one (V : env R) e0 e1 e2 e3 e4 e5 w f c d : sane V -> v_dim V = 3%Z -> geom V ->
  bnd_affine3 V e0 e1 e2 e3 e4 e5 w -> (0 <= c < 3)%Z -> (0 <= d < 3)%Z ->
  (forall e g, f e g = gr3 V g c (at3 (cmp3 V w d) e)) ->
  rsum (els3 V) (fun e => rsum (zrange 0 8) (fun g => f e g * wg3 V))
  = vol3 V * dgrad3 e0 e1 e2 e3 e4 e5 c d.
Proof.
  intros S D G H Hc Hd Hf. rewrite <- (grad_ave3 V e0 e1 e2 e3 e4 e5 w c d S D G H Hc Hd).
  apply rsum_ext. intros e _. apply rsum_ext. intros g _. now rewrite Hf.
Qed.
Lemma grad_ave3_two (V : env R) e0 e1 e2 e3 e4 e5 w f c d : sane V -> v_dim V = 3%Z -> geom V ->
  bnd_affine3 V e0 e1 e2 e3 e4 e5 w -> (0 <= c < 3)%Z -> (0 <= d < 3)%Z ->
  (forall e g, f e g = gr3 V g c (at3 (cmp3 V w d) e) + gr3 V g d (at3 (cmp3 V w c) e)) ->
  rsum (els3 V) (fun e => rsum (zrange 0 8) (fun g => f e g * wg3 V))
  = vol3 V * dgrad3 e0 e1 e2 e3 e4 e5 c d + vol3 V * dgrad3 e0 e1 e2 e3 e4 e5 d c.
Proof.
  intros S D G H Hc Hd Hf. rewrite <- (grad_ave3 V e0 e1 e2 e3 e4 e5 w c d S D G H Hc Hd).
  rewrite <- (grad_ave3 V e0 e1 e2 e3 e4 e5 w d c S D G H Hd Hc).
  rewrite <- rsum2_plus_w. apply rsum_ext. intros e _. apply rsum_ext. intros g _. now rewrite Hf.
Qed.

Theorem strain_ave3 (V : env R) e0 e1 e2 e3 e4 e5 w v : sane V -> v_dim V = 3%Z -> geom V ->
  bnd_affine3 V e0 e1 e2 e3 e4 e5 w -> (0 <= v < 6)%Z ->
  rsum (els3 V) (fun e => rsum (zrange 0 8) (fun g => str3 V w e g v * wg3 V))
  = vol3 V * voigt6 e0 e1 e2 e3 e4 e5 v.
Proof.
  intros S D G H Hv.
  assert (X : forall e g, str3 V w e g v = _) by (intros e g; exact (str3_grad V w e g v Hv)).
  cbv beta zeta in X.
  assert (C : v = 0%Z \/ v = 1%Z \/ v = 2%Z \/ v = 3%Z \/ v = 4%Z \/ v = 5%Z) by lia.
  destruct C as [->|[->|[->|[->|[->| ->]]]]]; cbn [Z.eqb Pos.eqb] in X.
  - exact (grad_ave3_one V e0 e1 e2 e3 e4 e5 w _ 0 0 S D G H ltac:(lia) ltac:(lia) X).
  - exact (grad_ave3_one V e0 e1 e2 e3 e4 e5 w _ 1 1 S D G H ltac:(lia) ltac:(lia) X).
  - exact (grad_ave3_one V e0 e1 e2 e3 e4 e5 w _ 2 2 S D G H ltac:(lia) ltac:(lia) X).
  - rewrite (grad_ave3_two V e0 e1 e2 e3 e4 e5 w _ 1 0 S D G H ltac:(lia) ltac:(lia) X).
    unfold dgrad3, voigt6; cbn [Z.eqb Pos.eqb]; field.
  - rewrite (grad_ave3_two V e0 e1 e2 e3 e4 e5 w _ 2 0 S D G H ltac:(lia) ltac:(lia) X).
    unfold dgrad3, voigt6; cbn [Z.eqb Pos.eqb]; field.
  - rewrite (grad_ave3_two V e0 e1 e2 e3 e4 e5 w _ 2 1 S D G H ltac:(lia) ltac:(lia) X).
    unfold dgrad3, voigt6; cbn [Z.eqb Pos.eqb]; field.
Qed.

Theorem strain_ave2 (V : env R) e0 e1 e2 w v : sane V -> geom V ->
  bnd_affine2 V e0 e1 e2 w -> (0 <= v < 3)%Z ->
  rsum (els2 V) (fun e => rsum (zrange 0 4) (fun g => str2 V w e g v * wg2 V))
  = vol2 V * voigt3 e0 e1 e2 v.
Proof.
  intros S G H Hv.
  assert (X : forall e g, str2 V w e g v = _) by (intros e g; exact (str2_grad V w e g v Hv)).
  cbv beta zeta in X.
  assert (C : v = 0%Z \/ v = 1%Z \/ v = 2%Z) by lia.
  destruct C as [->|[->| ->]]; cbn [Z.eqb Pos.eqb] in X.
  - etransitivity; [|exact (grad_ave2 V e0 e1 e2 w 0 0 S G H ltac:(lia) ltac:(lia))].
    apply rsum_ext. intros e _. apply rsum_ext. intros g _. now rewrite X.
  - etransitivity; [|exact (grad_ave2 V e0 e1 e2 w 1 1 S G H ltac:(lia) ltac:(lia))].
    apply rsum_ext. intros e _. apply rsum_ext. intros g _. now rewrite X.
  - transitivity (vol2 V * dgrad2 e0 e1 e2 1 0 + vol2 V * dgrad2 e0 e1 e2 0 1).
    2:{ unfold dgrad2, voigt3; cbn [Z.eqb Pos.eqb]; field. }
    rewrite <- (grad_ave2 V e0 e1 e2 w 1 0 S G H ltac:(lia) ltac:(lia)).
    rewrite <- (grad_ave2 V e0 e1 e2 w 0 1 S G H ltac:(lia) ltac:(lia)).
    rewrite <- rsum2_plus_w. apply rsum_ext. intros e _. apply rsum_ext. intros g _. now rewrite X.
Qed.
