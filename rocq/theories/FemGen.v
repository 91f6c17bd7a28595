(** Finite-element identities in exact arithmetic, independent of the mesh. *)
From Coq Require Import Reals Lra.
From Verif Require Import Base Scalar EllSpec EllModel AssemblyModel AsmPure.
Open Scope Z_scope.
Open Scope R_scope.

Lemma accf_R {A} (x : R) (l : list A) f : accf x l f = x + rsum l f.
Proof.
  unfold accf. revert x. induction l as [|a l IH]; intros x; simpl; [lra|].
  rewrite IH. simpl. lra.
Qed.

Lemma lget_zeros n i : (0 <= i < n)%Z -> lget (zeros n : list R) i = 0.
Proof. intros. unfold zeros. now rewrite lget_ltab. Qed.

Lemma add_rhs_fold nv nd (B : Z -> Z -> Z -> R) s (wg : R) gs be0 i : (0 <= i < nd)%Z ->
  lget (fold_left (fun be g => add_rhs nv nd (B g) (s g) wg be) gs be0) i =
  lget be0 i + rsum gs (fun g => rsum (zrange 0 nv) (fun v => B g v i * lget (s g) v * wg)).
Proof.
  intros Hi. revert be0. induction gs as [|g gs IH]; intros be0; cbn [fold_left rsum]; [lra|].
  rewrite IH. unfold add_rhs at 1. rewrite lget_ltab by assumption. rewrite accf_R.
  cbn [omul ROps]. lra.
Qed.

Lemma add_mat_fold nv nd (B : Z -> Z -> Z -> R) C (wg : R) gs A0 i j :
  (0 <= i < nd)%Z -> (0 <= j < nd)%Z ->
  lget (fold_left (fun A g => add_mat nv nd (B g) (C g) wg A) gs A0) (i * nd + j) =
  lget A0 (i * nd + j) + rsum gs (fun g => rsum (zrange 0 nv) (fun m =>
    B g m i * rsum (zrange 0 nv) (fun k => C g m k * B g k j) * wg)).
Proof.
  intros Hi Hj. revert A0. induction gs as [|g gs IH]; intros A0; cbn [fold_left rsum]; [lra|].
  rewrite IH. unfold add_mat at 1. rewrite lget_ltab by nia.
  rewrite accf_R.
  replace ((i * nd + j) / nd)%Z with i by (rewrite Z.div_add_l, Z.div_small by lia; lia).
  replace ((i * nd + j) mod nd)%Z with j
    by (rewrite Z.add_comm, Z.mod_add, Z.mod_small by lia; lia).
  rewrite (rsum_ext _ (fun m => omul (omul (B g m i) (cxb nv (C g) (B g) m j)) wg)
    (fun m => B g m i * rsum (zrange 0 nv) (fun k => C g m k * B g k j) * wg)); [lra|].
  intros m _. unfold cxb. rewrite sumf_R. reflexivity.
Qed.

Lemma add_ave_fold {A} nv (s : A -> list R) (wg : R) gs z v : (0 <= v < nv)%Z ->
  lget (fold_left (fun a g => add_ave nv (s g) wg a) gs z) v =
  lget z v + rsum gs (fun g => lget (s g) v * wg).
Proof.
  intros Hi. revert z. induction gs as [|g gs IH]; intros z; cbn [fold_left rsum]; [lra|].
  rewrite IH. unfold add_ave at 1. rewrite lget_ltab by assumption. cbn [oadd omul ROps]. lra.
Qed.

Lemma add_vec_fold {A} nv (s : A -> list R) gs z v : (0 <= v < nv)%Z ->
  lget (fold_left (fun a g => add_vec nv (s g) a) gs z) v = lget z v + rsum gs (fun g => lget (s g) v).
Proof.
  intros Hi. revert z. induction gs as [|g gs IH]; intros z; cbn [fold_left rsum]; [lra|].
  rewrite IH. unfold add_vec at 1. rewrite lget_ltab by assumption. cbn [oadd ROps]. lra.
Qed.

Lemma strain_of_R nv nd (B : Z -> Z -> R) ed v : (0 <= v < nv)%Z ->
  lget (strain_of nv nd B ed) v = rsum (zrange 0 nd) (fun i => B v i * lget ed i).
Proof. intros. unfold strain_of. rewrite lget_ltab by assumption. apply sumf_R. Qed.

(** ** Mesh-level sums *)
Section Mesh.
Context {E : Type}.
Variables (els : list E) (nd nv N : Z) (gs : list Z).
Variable addr : E -> Z -> Z.              (* global dof of local dof *)
Variable B : Z -> Z -> Z -> R.            (* Gauss point, strain component, local dof *)
Variable wg : R.
Hypothesis addr_range : forall e i, In e els -> (0 <= i < nd)%Z -> (0 <= addr e i < N)%Z.

Definition mstrain (w : Z -> R) (e : E) (g v : Z) : R :=
  rsum (zrange 0 nd) (fun i => B g v i * w (addr e i)).
(** internal forces of a stress field *)
Definition mbe (s : E -> Z -> Z -> R) (e : E) (i : Z) : R :=
  rsum gs (fun g => rsum (zrange 0 nv) (fun v => B g v i * s e g v * wg)).
Definition mforce (s : E -> Z -> Z -> R) (a : Z) : R :=
  rsum els (fun e => rsum (zrange 0 nd) (fun i => if (addr e i =? a)%Z then mbe s e i else 0)).
(** internal virtual work *)
Definition mwork (s : E -> Z -> Z -> R) (w : Z -> R) : R :=
  rsum els (fun e => rsum gs (fun g => rsum (zrange 0 nv) (fun v => s e g v * mstrain w e g v * wg))).

Lemma gather_scatter (f : E -> Z -> R) (w : Z -> R) :
  rsum (zrange 0 N) (fun a => w a * rsum els (fun e => rsum (zrange 0 nd) (fun i =>
    if (addr e i =? a)%Z then f e i else 0)))
  = rsum els (fun e => rsum (zrange 0 nd) (fun i => w (addr e i) * f e i)).
Proof.
  transitivity (rsum (zrange 0 N) (fun a => rsum els (fun e => rsum (zrange 0 nd) (fun i =>
    if (addr e i =? a)%Z then w a * f e i else 0)))).
  { apply rsum_ext. intros a _. rewrite <- rsum_scal. apply rsum_ext. intros e _.
    rewrite <- rsum_scal. apply rsum_ext. intros i _. destruct (_ =? _)%Z; ring. }
  rewrite rsum_swap. apply rsum_ext. intros e He. rewrite rsum_swap. apply rsum_ext. intros i Hi.
  apply in_zrange in Hi. pose proof (addr_range e i He Hi) as Ha.
  rewrite (rsum_single _ _ (addr e i)).
  - now rewrite Z.eqb_refl.
  - apply NoDup_zrange.
  - now apply in_zrange.
  - intros b _ Hb. destruct (Z.eqb_spec (addr e i) b); [congruence|reflexivity].
Qed.

Theorem virtual_work s w : rsum (zrange 0 N) (fun a => w a * mforce s a) = mwork s w.
Proof.
  unfold mforce. rewrite gather_scatter. unfold mwork. apply rsum_ext. intros e He.
  unfold mbe, mstrain.
  transitivity (rsum (zrange 0 nd) (fun i => rsum gs (fun g => rsum (zrange 0 nv) (fun v =>
     w (addr e i) * (B g v i * s e g v * wg))))).
  { apply rsum_ext. intros i _. rewrite <- rsum_scal. apply rsum_ext. intros g _.
    rewrite <- rsum_scal. reflexivity. }
  rewrite rsum_swap. apply rsum_ext. intros g _. rewrite rsum_swap. apply rsum_ext. intros v _.
  transitivity (s e g v * wg * rsum (zrange 0 nd) (fun i => B g v i * w (addr e i))); [|ring].
  rewrite <- rsum_scal. apply rsum_ext. intros i _. ring.
Qed.

(** the element matrix applied to nodal values is the force of the stress C eps *)
Lemma stiff_force (C : E -> Z -> Z -> Z -> R) w e i :
  rsum (zrange 0 nd) (fun j => rsum gs (fun g => rsum (zrange 0 nv) (fun m =>
      B g m i * rsum (zrange 0 nv) (fun k => C e g m k * B g k j) * wg)) * w (addr e j))
  = mbe (fun e g m => rsum (zrange 0 nv) (fun k => C e g m k * mstrain w e g k)) e i.
Proof.
  unfold mbe, mstrain.
  transitivity (rsum (zrange 0 nd) (fun j => rsum gs (fun g => rsum (zrange 0 nv) (fun m =>
      rsum (zrange 0 nv) (fun k => B g m i * wg * (C e g m k * (B g k j * w (addr e j)))))))).
  { apply rsum_ext. intros j _. rewrite <- rsum_scal_r. apply rsum_ext. intros g _.
    rewrite <- rsum_scal_r. apply rsum_ext. intros m _.
    transitivity (B g m i * wg * w (addr e j) * rsum (zrange 0 nv) (fun k => C e g m k * B g k j)); [ring|].
    rewrite <- rsum_scal. apply rsum_ext. intros k _. ring. }
  rewrite rsum_swap. apply rsum_ext. intros g _. rewrite rsum_swap. apply rsum_ext. intros m _.
  rewrite rsum_swap.
  transitivity (B g m i * wg * rsum (zrange 0 nv) (fun k => C e g m k * rsum (zrange 0 nd) (fun j => B g k j * w (addr e j)))); [|ring].
  rewrite <- rsum_scal. apply rsum_ext. intros k _. rewrite rsum_scal, rsum_scal. reflexivity.
Qed.
End Mesh.

(** ** Shape functions *)
Lemma zr4 : zrange 0 4 = [0; 1; 2; 3]%Z. Proof. reflexivity. Qed.
Lemma zr8 : zrange 0 8 = [0; 1; 2; 3; 4; 5; 6; 7]%Z. Proof. reflexivity. Qed.
Lemma zr24 : zrange 0 24 = [0; 1; 2; 3; 4; 5; 6; 7; 8; 9; 10; 11; 12; 13; 14; 15; 16; 17; 18; 19; 20; 21; 22; 23]%Z.
Proof. reflexivity. Qed.

(** derivative of the interpolated field along axis c *)
Definition grad2 (x0 x1 dx dy : R) (c : Z) (f : Z -> R) : R :=
  rsum (zrange 0 4) (fun n => dsh2 x0 x1 dx dy n c * f n).
Definition grad3 (x0 x1 x2 dx dy dz : R) (c : Z) (f : Z -> R) : R :=
  rsum (zrange 0 8) (fun n => dsh3 x0 x1 x2 dx dy dz n c * f n).

Section Bmat.
Variables x0 x1 x2 dx dy dz : R.

Lemma bmat2_strain v (f : Z -> R) : (0 <= v < 3)%Z ->
  rsum (zrange 0 8) (fun i => bmat2 x0 x1 dx dy v i * f i) =
  let g c k := grad2 x0 x1 dx dy c (fun n => f (n * 2 + k)%Z) in
  if (v =? 0)%Z then g 0%Z 0%Z else if (v =? 1)%Z then g 1%Z 1%Z
  else g 1%Z 0%Z + g 0%Z 1%Z.
Proof.
  intros H. rewrite zr8. unfold grad2. rewrite zr4. cbn [rsum].
  assert (C : v = 0%Z \/ v = 1%Z \/ v = 2%Z) by lia.
  destruct C as [->|[->| ->]]; cbn [Z.eqb Pos.eqb Z.mul Z.add Pos.mul Pos.add Pos.succ];
    unfold bmat2; repeat match goal with
      | |- context [(?a / 2)%Z] => let r := eval compute in (a / 2)%Z in change (a / 2)%Z with r
      | |- context [(?a mod 2)%Z] => let r := eval compute in (a mod 2)%Z in change (a mod 2)%Z with r
      end; cbn iota beta; cbn [ofZ ROps]; ring.
Qed.

Lemma bmat3_strain v (f : Z -> R) : (0 <= v < 6)%Z ->
  rsum (zrange 0 24) (fun i => bmat3 x0 x1 x2 dx dy dz v i * f i) =
  let g c k := grad3 x0 x1 x2 dx dy dz c (fun n => f (n * 3 + k)%Z) in
  if (v =? 0)%Z then g 0%Z 0%Z else if (v =? 1)%Z then g 1%Z 1%Z else if (v =? 2)%Z then g 2%Z 2%Z
  else if (v =? 3)%Z then g 1%Z 0%Z + g 0%Z 1%Z
  else if (v =? 4)%Z then g 2%Z 0%Z + g 0%Z 2%Z
  else g 2%Z 1%Z + g 1%Z 2%Z.
Proof.
  intros H. rewrite zr24. unfold grad3. rewrite zr8. cbn [rsum].
  assert (C : v = 0%Z \/ v = 1%Z \/ v = 2%Z \/ v = 3%Z \/ v = 4%Z \/ v = 5%Z) by lia.
  destruct C as [->|[->|[->|[->|[->| ->]]]]]; cbn [Z.eqb Pos.eqb Z.mul Z.add Pos.mul Pos.add Pos.succ];
    unfold bmat3; repeat match goal with
      | |- context [(?a / 3)%Z] => let r := eval compute in (a / 3)%Z in change (a / 3)%Z with r
      | |- context [(?a mod 3)%Z] => let r := eval compute in (a mod 3)%Z in change (a mod 3)%Z with r
      end; cbn iota beta; cbn [ofZ ROps]; ring.
Qed.

Hypotheses (Hx : dx <> 0) (Hy : dy <> 0).

Lemma grad2_affine c p0 p1 p2 : (0 <= c < 2)%Z ->
  grad2 x0 x1 dx dy c (fun n => p0 + p1 * (IZR (cor_x n) * dx) + p2 * (IZR (cor_y n) * dy))
  = if (c =? 0)%Z then p1 else p2.
Proof.
  intros H. unfold grad2. rewrite zr4. cbn [rsum].
  assert (C : c = 0%Z \/ c = 1%Z) by lia.
  destruct C as [->| ->]; unfold dsh2; cbn; field; auto.
Qed.

Hypothesis Hz : dz <> 0.
Lemma grad3_affine c p0 p1 p2 p3 : (0 <= c < 3)%Z ->
  grad3 x0 x1 x2 dx dy dz c (fun n =>
    p0 + p1 * (IZR (cor_x n) * dx) + p2 * (IZR (cor_y n) * dy) + p3 * (IZR (cor_z n) * dz))
  = if (c =? 0)%Z then p1 else if (c =? 1)%Z then p2 else p3.
Proof.
  intros H. unfold grad3. rewrite zr8. cbn [rsum].
  assert (C : c = 0%Z \/ c = 1%Z \/ c = 2%Z) by lia.
  destruct C as [->|[->| ->]]; unfold dsh3; cbn; field; auto.
Qed.
End Bmat.
