(** Boundary loops: prescribed displacements and zeroed residual. *)
From Coq Require Import Reals Lra.
From Verif Require Import Base Scalar EllSpec EllInit Grid EllModel EllAsm AssemblyModel AsmPure.
Open Scope Z_scope.

Lemma nod_index_node nx ny i j k : nod_index nx ny i j k = node nx ny i j k.
Proof. unfold nod_index, node. ring. Qed.

Lemma dof_inj d n c n' c' : 0 <= c < d -> 0 <= c' < d -> n * d + c = n' * d + c' -> n = n' /\ c = c'.
Proof. intros H H' E. assert (n = n') by nia. subst. lia. Qed.

(** a list of stores that writes [f n c] to every component of the nodes of P
    and nothing else *)
Section Paint.
Context {T : Type}.
Variables (d N : Z) (P : Z -> Prop) (f : Z -> Z -> T) (ws : list (Z * T)).
Hypothesis Hin : forall a v, In (a, v) ws ->
  exists n c, P n /\ 0 <= n < N /\ 0 <= c < d /\ a = n * d + c /\ v = f n c.
Hypothesis Hall : forall n c, P n -> 0 <= n < N -> 0 <= c < d -> In (n * d + c, f n c) ws.

Lemma paint_ok u : alen u = N * d ->
  exists u', run_stores ws u = Ok u' /\ alen u' = N * d /\
    (forall n c, P n -> 0 <= n < N -> 0 <= c < d -> aget u' (n * d + c) = Some (f n c)) /\
    (forall n c, ~ P n -> 0 <= n < N -> 0 <= c < d -> aget u' (n * d + c) = aget u (n * d + c)).
Proof.
  intros L. destruct (run_stores_ok ws u) as (u' & E & L' & G).
  { intros a v H. destruct (Hin _ _ H) as (n & c & _ & Hn & Hc & -> & _). nia. }
  exists u'. split; [exact E|]. split; [congruence|]. split; intros n c Hp Hn Hc; rewrite G.
  - rewrite (last_write_unique ws (n * d + c) (f n c)); [reflexivity|auto|].
    intros v Hv. destruct (Hin _ _ Hv) as (n' & c' & _ & _ & Hc' & E' & ->).
    apply dof_inj in E'; try assumption. destruct E' as (-> & ->). reflexivity.
  - rewrite last_write_none; [reflexivity|]. intros v Hv.
    destruct (Hin _ _ Hv) as (n' & c' & Hp' & _ & Hc' & E' & _).
    apply dof_inj in E'; try assumption. destruct E' as (-> & _). tauto.
Qed.
End Paint.

(** boundary nodes by number *)
Definition isb3 (nx ny nz n : Z) : Prop :=
  exists i j k, 0 <= i < nx /\ 0 <= j < ny /\ 0 <= k < nz /\ n = node nx ny i j k /\ bnd3 nx ny nz i j k.
Definition isb2 (nx ny n : Z) : Prop :=
  exists i j, 0 <= i < nx /\ 0 <= j < ny /\ n = node nx ny i j 0 /\ bnd2 nx ny i j.

Lemma isb3_node nx ny nz i j k : 0 <= i < nx -> 0 <= j < ny -> 0 <= k < nz ->
  isb3 nx ny nz (node nx ny i j k) <-> bnd3 nx ny nz i j k.
Proof.
  intros Hi Hj Hk. split.
  - intros (i' & j' & k' & Hi' & Hj' & Hk' & E & B). apply node_inj in E; try assumption.
    destruct E as (-> & -> & ->). exact B.
  - intros B. now exists i, j, k.
Qed.
Lemma isb2_node nx ny i j : 0 <= i < nx -> 0 <= j < ny ->
  isb2 nx ny (node nx ny i j 0) <-> bnd2 nx ny i j.
Proof.
  intros Hi Hj. split.
  - intros (i' & j' & Hi' & Hj' & E & B). apply node_inj in E; try assumption.
    destruct E as (-> & -> & _). exact B.
  - intros B. now exists i, j.
Qed.

Ltac in_range := repeat match goal with H : In _ (zrange _ _) |- _ => apply in_zrange in H end.
Ltac unfaces H :=
  repeat match type of H with
  | In _ (_ ++ _) => apply in_app_or in H; destruct H as [H|H]
  | In _ (flat_map _ _) => let x := fresh "q" in let Hx := fresh "Hq" in
      apply in_flat_map in H; destruct H as (x & Hx & H); apply in_zrange in Hx
  end.

(** ** Generic face loops *)
Section Faces.
Context {T : Type}.
Variables (nx ny nz : Z).
Hypotheses (Hx : 2 <= nx) (Hy : 2 <= ny) (Hz : 2 <= nz).
Variable s1 s2 s3 s4 s5 s6 : Z -> Z -> list (Z * T).
Let loops : list (Z * T) :=
  flat_map (fun i => flat_map (fun j => s1 i j) (zrange 0 ny)) (zrange 0 nx)
  ++ flat_map (fun i => flat_map (fun j => s2 i j) (zrange 0 ny)) (zrange 0 nx)
  ++ flat_map (fun i => flat_map (fun k => s3 i k) (zrange 1 (nz - 1))) (zrange 0 nx)
  ++ flat_map (fun i => flat_map (fun k => s4 i k) (zrange 1 (nz - 1))) (zrange 0 nx)
  ++ flat_map (fun j => flat_map (fun k => s5 j k) (zrange 1 (nz - 1))) (zrange 1 (ny - 1))
  ++ flat_map (fun j => flat_map (fun k => s6 j k) (zrange 1 (nz - 1))) (zrange 1 (ny - 1)).
(** the stores of one node *)
Variable S : Z -> Z -> Z -> list (Z * T).
Hypothesis E1 : forall i j, 0 <= i < nx -> 0 <= j < ny -> s1 i j = S i j 0.
Hypothesis E2 : forall i j, 0 <= i < nx -> 0 <= j < ny -> s2 i j = S i j (nz - 1).
Hypothesis E3 : forall i k, 0 <= i < nx -> 1 <= k < nz - 1 -> s3 i k = S i 0 k.
Hypothesis E4 : forall i k, 0 <= i < nx -> 1 <= k < nz - 1 -> s4 i k = S i (ny - 1) k.
Hypothesis E5 : forall j k, 1 <= j < ny - 1 -> 1 <= k < nz - 1 -> s5 j k = S 0 j k.
Hypothesis E6 : forall j k, 1 <= j < ny - 1 -> 1 <= k < nz - 1 -> s6 j k = S (nx - 1) j k.

Lemma loops_in w : In w loops ->
  exists i j k, 0 <= i < nx /\ 0 <= j < ny /\ 0 <= k < nz /\ bnd3 nx ny nz i j k /\ In w (S i j k).
Proof.
  unfold loops, bnd3, on_bnd. intros H. unfaces H.
  - exists q, q0, 0. rewrite E1 in H by lia. repeat split; try lia; assumption.
  - exists q, q0, (nz - 1). rewrite E2 in H by lia. repeat split; try lia; assumption.
  - exists q, 0, q0. rewrite E3 in H by lia. repeat split; try lia; assumption.
  - exists q, (ny - 1), q0. rewrite E4 in H by lia. repeat split; try lia; assumption.
  - exists 0, q, q0. rewrite E5 in H by lia. repeat split; try lia; assumption.
  - exists (nx - 1), q, q0. rewrite E6 in H by lia. repeat split; try lia; assumption.
Qed.

Lemma in_flat2 {A B C} (g : A -> B -> list C) l1 l2 a b c : In a l1 -> In b l2 -> In c (g a b) ->
  In c (flat_map (fun x => flat_map (fun y => g x y) l2) l1).
Proof.
  intros H1 H2 H. apply in_flat_map. exists a. split; [exact H1|].
  apply in_flat_map. exists b. auto.
Qed.

Lemma loops_all i j k w : 0 <= i < nx -> 0 <= j < ny -> 0 <= k < nz -> bnd3 nx ny nz i j k ->
  In w (S i j k) -> In w loops.
Proof.
  intros Hi Hj Hk B H. unfold loops.
  destruct (Z.eq_dec k 0) as [->|].
  { apply in_or_app; left. apply (in_flat2 s1 _ _ i j); try (apply in_zrange; lia). now rewrite E1. }
  apply in_or_app; right.
  destruct (Z.eq_dec k (nz - 1)) as [->|].
  { apply in_or_app; left. apply (in_flat2 s2 _ _ i j); try (apply in_zrange; lia). now rewrite E2. }
  apply in_or_app; right.
  destruct (Z.eq_dec j 0) as [->|].
  { apply in_or_app; left. apply (in_flat2 s3 _ _ i k); try (apply in_zrange; lia). rewrite E3 by lia; auto. }
  apply in_or_app; right.
  destruct (Z.eq_dec j (ny - 1)) as [->|].
  { apply in_or_app; left. apply (in_flat2 s4 _ _ i k); try (apply in_zrange; lia). rewrite E4 by lia; auto. }
  apply in_or_app; right. unfold bnd3, on_bnd in B.
  destruct (Z.eq_dec i 0) as [->|].
  { apply in_or_app; left. apply (in_flat2 s5 _ _ j k); try (apply in_zrange; lia). rewrite E5 by lia; auto. }
  apply in_or_app; right. replace i with (nx - 1) in H by lia.
  apply (in_flat2 s6 _ _ j k); try (apply in_zrange; lia). rewrite E6 by lia; auto.
Qed.

(** every node's stores are [d] components with values [val] *)
Variables (d : Z) (val : Z -> Z -> Z -> Z -> T).
Hypothesis Hd : 0 < d.
Hypothesis HS : forall i j k, 0 <= i < nx -> 0 <= j < ny -> 0 <= k < nz ->
  S i j k = map (fun c => (node nx ny i j k * d + c, val i j k c)) (zrange 0 d).

Lemma faces_ok u : alen u = nx * ny * nz * d ->
  exists u', run_stores loops u = Ok u' /\ alen u' = nx * ny * nz * d /\
    forall i j k c, 0 <= i < nx -> 0 <= j < ny -> 0 <= k < nz -> 0 <= c < d ->
      (bnd3 nx ny nz i j k -> aget u' (node nx ny i j k * d + c) = Some (val i j k c)) /\
      (~ bnd3 nx ny nz i j k -> aget u' (node nx ny i j k * d + c) = aget u (node nx ny i j k * d + c)).
Proof.
  intros L.
  set (crd := fun n => (n mod nx, (n / nx) mod ny, n / nx / ny)).
  assert (Hcrd : forall i j k, 0 <= i < nx -> 0 <= j < ny -> 0 <= k -> crd (node nx ny i j k) = (i, j, k)).
  { intros i j k Hi Hj Hk. unfold crd, node.
    replace (i + nx * (j + ny * k)) with (i + (j + ny * k) * nx) by ring.
    rewrite Z.mod_add, Z.div_add by lia. rewrite (Z.div_small i), (Z.mod_small i) by lia.
    replace (0 + (j + ny * k)) with (j + k * ny) by ring.
    rewrite Z.mod_add, Z.div_add by lia. rewrite (Z.div_small j), (Z.mod_small j) by lia. reflexivity. }
  destruct (paint_ok d (nx * ny * nz) (isb3 nx ny nz)
    (fun n c => let '(i, j, k) := crd n in val i j k c) loops) with (u := u)
    as (u' & E & L' & G1 & G2); [| |exact L|].
  - intros a v H. apply loops_in in H. destruct H as (i & j & k & Hi & Hj & Hk & B & H).
    rewrite HS in H by assumption. apply in_map_iff in H. destruct H as (c & [= <- <-] & Hc).
    apply in_zrange in Hc. exists (node nx ny i j k), c. rewrite Hcrd by lia.
    split; [now exists i, j, k|]. split; [now apply node_range|]. split; [assumption|]. split; reflexivity.
  - intros n c (i & j & k & Hi & Hj & Hk & -> & B) Hn Hc. rewrite Hcrd by lia.
    apply (loops_all i j k); try assumption. rewrite HS by assumption.
    apply in_map_iff. exists c. split; [reflexivity|now apply in_zrange].
  - exists u'. split; [exact E|]. split; [exact L'|]. intros i j k c Hi Hj Hk Hc.
    pose proof (node_range nx ny nz i j k Hi Hj Hk) as Hn. split; intros B.
    + rewrite G1; try assumption; [now rewrite Hcrd by lia|]. now apply isb3_node.
    + rewrite G2; try assumption; [reflexivity|]. now rewrite isb3_node.
Qed.
End Faces.

Section Edges.
Context {T : Type}.
Variables (nx ny : Z).
Hypotheses (Hx : 2 <= nx) (Hy : 2 <= ny).
Variable s1 s2 s3 s4 : Z -> list (Z * T).
Let loops : list (Z * T) :=
  flat_map (fun i => s1 i) (zrange 0 nx)
  ++ flat_map (fun i => s2 i) (zrange 0 nx)
  ++ flat_map (fun i => s3 i) (zrange 0 (ny - 2))
  ++ flat_map (fun i => s4 i) (zrange 0 (ny - 2)).
Variables (d : Z) (val : Z -> Z -> Z -> T).
Hypothesis Hd : 0 < d.
Let S i j : list (Z * T) := map (fun c => (node nx ny i j 0 * d + c, val i j c)) (zrange 0 d).
Hypothesis E1 : forall i, 0 <= i < nx -> s1 i = S i 0.
Hypothesis E2 : forall i, 0 <= i < nx -> s2 i = S i (ny - 1).
Hypothesis E3 : forall i, 0 <= i < ny - 2 -> s3 i = S 0 (i + 1).
Hypothesis E4 : forall i, 0 <= i < ny - 2 -> s4 i = S (nx - 1) (i + 1).

Lemma in_flat1 {A C} (g : A -> list C) l a c : In a l -> In c (g a) -> In c (flat_map (fun x => g x) l).
Proof. intros H1 H. apply in_flat_map. exists a. auto. Qed.

Lemma edges_ok u : alen u = nx * ny * d ->
  exists u', run_stores loops u = Ok u' /\ alen u' = nx * ny * d /\
    forall i j c, 0 <= i < nx -> 0 <= j < ny -> 0 <= c < d ->
      (bnd2 nx ny i j -> aget u' (node nx ny i j 0 * d + c) = Some (val i j c)) /\
      (~ bnd2 nx ny i j -> aget u' (node nx ny i j 0 * d + c) = aget u (node nx ny i j 0 * d + c)).
Proof.
  intros L.
  set (crd := fun n => (n mod nx, n / nx)).
  assert (Hcrd : forall i j, 0 <= i < nx -> crd (node nx ny i j 0) = (i, j)).
  { intros i j Hi. unfold crd, node.
    replace (i + nx * (j + ny * 0)) with (i + j * nx) by ring.
    rewrite Z.mod_add, Z.div_add by lia. rewrite (Z.div_small i), (Z.mod_small i) by lia. reflexivity. }
  assert (HR : forall i j, 0 <= i < nx -> 0 <= j < ny -> 0 <= node nx ny i j 0 < nx * ny).
  { intros. unfold node. nia. }
  destruct (paint_ok d (nx * ny) (isb2 nx ny)
    (fun n c => let '(i, j) := crd n in val i j c) loops) with (u := u)
    as (u' & E & L' & G1 & G2); [| |exact L|].
  - intros a v H.
    assert (X : exists i j, 0 <= i < nx /\ 0 <= j < ny /\ bnd2 nx ny i j /\ In (a, v) (S i j)).
    { unfold loops, bnd2, on_bnd in *. unfaces H.
      - exists q, 0. rewrite E1 in H by lia. repeat split; try lia; assumption.
      - exists q, (ny - 1). rewrite E2 in H by lia. repeat split; try lia; assumption.
      - exists 0, (q + 1). rewrite E3 in H by lia. repeat split; try lia; assumption.
      - exists (nx - 1), (q + 1). rewrite E4 in H by lia. repeat split; try lia; assumption. }
    destruct X as (i & j & Hi & Hj & B & X). apply in_map_iff in X. destruct X as (c & [= <- <-] & Hc).
    apply in_zrange in Hc. exists (node nx ny i j 0), c. rewrite Hcrd by lia.
    split; [now exists i, j|]. split; [now apply HR|]. split; [assumption|]. split; reflexivity.
  - intros n c (i & j & Hi & Hj & -> & B) Hn Hc. rewrite Hcrd by lia.
    assert (X : In (node nx ny i j 0 * d + c, val i j c) (S i j)).
    { apply in_map_iff. exists c. split; [reflexivity|now apply in_zrange]. }
    unfold loops.
    destruct (Z.eq_dec j 0) as [->|].
    { apply in_or_app; left. apply (in_flat1 s1 _ i); [apply in_zrange; lia|]. rewrite E1 by lia; auto. }
    apply in_or_app; right.
    destruct (Z.eq_dec j (ny - 1)) as [->|].
    { apply in_or_app; left. apply (in_flat1 s2 _ i); [apply in_zrange; lia|]. rewrite E2 by lia; auto. }
    apply in_or_app; right. unfold bnd2, on_bnd in B.
    destruct (Z.eq_dec i 0) as [->|].
    { apply in_or_app; left. apply (in_flat1 s3 _ (j - 1)); [apply in_zrange; lia|]. rewrite E3 by lia.
      now replace (j - 1 + 1) with j by ring. }
    apply in_or_app; right. replace i with (nx - 1) in * by lia.
    apply (in_flat1 s4 _ (j - 1)); [apply in_zrange; lia|]. rewrite E4 by lia.
    now replace (j - 1 + 1) with j by ring.
  - exists u'. split; [exact E|]. split; [exact L'|]. intros i j c Hi Hj Hc.
    pose proof (HR i j Hi Hj) as Hn. split; intros B.
    + rewrite G1; try assumption; [now rewrite Hcrd by lia|]. now apply isb2_node.
    + rewrite G2; try assumption; [reflexivity|]. now rewrite isb2_node.
Qed.
End Edges.

(** ** The zeroed residual, for every scalar type *)
Section Zero.
Context {T : Type} `{OT : Ops T}.
Implicit Type V : env T.

Lemma zero_bnd3_ok V b : 2 <= v_nx V -> 2 <= v_ny V -> 2 <= v_nz V ->
  let nx := v_nx V in let ny := v_ny V in let nz := v_nz V in
  alen b = nx * ny * nz * 3 ->
  exists b', run_stores (zero_bnd3 V) b = Ok b' /\ alen b' = nx * ny * nz * 3 /\
    forall i j k c, 0 <= i < nx -> 0 <= j < ny -> 0 <= k < nz -> 0 <= c < 3 ->
      (bnd3 nx ny nz i j k -> aget b' (node nx ny i j k * 3 + c) = Some (dec 0 1)) /\
      (~ bnd3 nx ny nz i j k -> aget b' (node nx ny i j k * 3 + c) = aget b (node nx ny i j k * 3 + c)).
Proof.
  intros Hx Hy Hz nx ny nz L.
  apply (faces_ok nx ny nz Hx Hy Hz
    (fun i j => zero_node 3 (nod_index nx ny i j 0)) (fun i j => zero_node 3 (nod_index nx ny i j (nz - 1)))
    (fun i k => zero_node 3 (nod_index nx ny i 0 k)) (fun i k => zero_node 3 (nod_index nx ny i (ny - 1) k))
    (fun j k => zero_node 3 (nod_index nx ny 0 j k)) (fun j k => zero_node 3 (nod_index nx ny (nx - 1) j k))
    (fun i j k => zero_node 3 (node nx ny i j k))) with (val := fun _ _ _ _ => dec 0 1);
    try lia; try exact L; intros; rewrite ?nod_index_node; reflexivity.
Qed.

Lemma zero_bnd2_ok V b : 2 <= v_nx V -> 2 <= v_ny V ->
  let nx := v_nx V in let ny := v_ny V in
  alen b = nx * ny * 2 ->
  exists b', run_stores (zero_bnd2 V) b = Ok b' /\ alen b' = nx * ny * 2 /\
    forall i j c, 0 <= i < nx -> 0 <= j < ny -> 0 <= c < 2 ->
      (bnd2 nx ny i j -> aget b' (node nx ny i j 0 * 2 + c) = Some (dec 0 1)) /\
      (~ bnd2 nx ny i j -> aget b' (node nx ny i j 0 * 2 + c) = aget b (node nx ny i j 0 * 2 + c)).
Proof.
  intros Hx Hy nx ny L.
  apply (edges_ok nx ny Hx Hy
    (fun i => zero_node 2 i) (fun i => zero_node 2 (i + (ny - 1) * nx))
    (fun i => zero_node 2 ((i + 1) * nx)) (fun i => zero_node 2 ((i + 2) * nx - 1)) 2
    (fun _ _ _ => dec 0 1)); try lia; try exact L; intros; unfold zero_node;
    apply map_ext; intros c; f_equal; unfold node; ring.
Qed.
End Zero.

(** ** Prescribed displacements, exact arithmetic *)
(** affine displacement of component c at (x,y[,z]) for the Voigt strain eps *)
Open Scope R_scope.
Definition affine2 (e0 e1 e2 : R) (x y : R) (c : Z) : R :=
  if (c =? 0)%Z then e0 * x + e2 / 2 * y else e2 / 2 * x + e1 * y.
Definition affine3 (e0 e1 e2 e3 e4 e5 : R) (x y z : R) (c : Z) : R :=
  if (c =? 0)%Z then e0 * x + e3 / 2 * y + e4 / 2 * z
  else if (c =? 1)%Z then e3 / 2 * x + e1 * y + e5 / 2 * z
  else e4 / 2 * x + e5 / 2 * y + e2 * z.
Close Scope R_scope.

Lemma dec01 : dec 0 1 = 0%R. Proof. unfold dec; simpl. lra. Qed.
Lemma dec51 : dec 5 1 = (1 / 2)%R. Proof. unfold dec; simpl. lra. Qed.

(** cell sizes of the constructor (src/micro.cpp:36-38) *)
Record geom (V : env R) : Prop := {
  ge_x : v_lx V = (IZR (v_nx V - 1) * v_dx V)%R;
  ge_y : v_ly V = (IZR (v_ny V - 1) * v_dy V)%R;
  ge_z : v_dim V = 3 -> v_lz V = (IZR (v_nz V - 1) * v_dz V)%R;
  ge_px : (0 < v_dx V)%R; ge_py : (0 < v_dy V)%R; ge_pz : v_dim V = 3 -> (0 < v_dz V)%R }.

Lemma map3 {A} (f : Z -> A) : map f (zrange 0 3) = [f 0; f 1; f 2]. Proof. reflexivity. Qed.
Lemma map2 {A} (f : Z -> A) : map f (zrange 0 2) = [f 0; f 1]. Proof. reflexivity. Qed.

Lemma displ3_S nx ny (V : env R) e i j k x y z : x = (IZR i * v_dx V)%R -> y = (IZR j * v_dy V)%R -> z = (IZR k * v_dz V)%R ->
  displ3 e (nod_index nx ny i j k) x y z =
  map (fun c => (node nx ny i j k * 3 + c,
    affine3 (lget e 0) (lget e 1) (lget e 2) (lget e 3) (lget e 4) (lget e 5)
      (IZR i * v_dx V) (IZR j * v_dy V) (IZR k * v_dz V) c)) (zrange 0 3).
Proof.
  intros -> -> ->. rewrite map3. unfold displ3, affine3. rewrite dec51, nod_index_node.
  cbn [oadd omul ROps Z.eqb Pos.eqb].
  apply f_equal2; [|apply f_equal2; [|apply f_equal2; [|reflexivity]]]; (apply f_equal2; [ring|field]).
Qed.

Lemma displ2_S nx ny (V : env R) e n i j x y : n = node nx ny i j 0 -> x = (IZR i * v_dx V)%R -> y = (IZR j * v_dy V)%R ->
  displ2 e n x y =
  map (fun c => (node nx ny i j 0 * 2 + c,
    affine2 (lget e 0) (lget e 1) (lget e 2) (IZR i * v_dx V) (IZR j * v_dy V) c)) (zrange 0 2).
Proof.
  intros -> -> ->. rewrite map2. unfold displ2, affine2. rewrite dec51.
  cbn [oadd omul ROps Z.eqb Pos.eqb].
  apply f_equal2; [|apply f_equal2; [|reflexivity]]; (apply f_equal2; [ring|field]).
Qed.

Theorem set_displ3_ok (V : env R) e u : sane V -> geom V -> v_dim V = 3 ->
  let nx := v_nx V in let ny := v_ny V in let nz := v_nz V in
  alen u = nx * ny * nz * 3 ->
  exists u', set_displ V e u = Ok u' /\ alen u' = nx * ny * nz * 3 /\
    forall i j k c, 0 <= i < nx -> 0 <= j < ny -> 0 <= k < nz -> 0 <= c < 3 ->
      (bnd3 nx ny nz i j k -> aget u' (node nx ny i j k * 3 + c) =
         Some (affine3 (lget e 0) (lget e 1) (lget e 2) (lget e 3) (lget e 4) (lget e 5)
                 (IZR i * v_dx V) (IZR j * v_dy V) (IZR k * v_dz V) c)) /\
      (~ bnd3 nx ny nz i j k -> aget u' (node nx ny i j k * 3 + c) = aget u (node nx ny i j k * 3 + c)).
Proof.
  intros S G D nx ny nz L. unfold set_displ. rewrite D. cbn [Z.eqb Pos.eqb].
  pose proof (sa_nx V S). pose proof (sa_ny V S).
  assert (2 <= nz) by (destruct (sa_dim V S); unfold nz; lia).
  pose proof (ge_x V G) as Gx. pose proof (ge_y V G) as Gy. pose proof (ge_z V G D) as Gz.
  unfold set_displ3_stores. fold nx ny nz. rewrite dec01.
  set (x i := (IZR i * v_dx V)%R). set (y j := (IZR j * v_dy V)%R). set (z k := (IZR k * v_dz V)%R).
  apply (faces_ok nx ny nz ltac:(assumption) ltac:(assumption) ltac:(assumption)
    (fun i j => displ3 e (nod_index nx ny i j 0) (x i) (y j) 0%R)
    (fun i j => displ3 e (nod_index nx ny i j (nz - 1)) (x i) (y j) (v_lz V))
    (fun i k => displ3 e (nod_index nx ny i 0 k) (x i) 0%R (z k))
    (fun i k => displ3 e (nod_index nx ny i (ny - 1) k) (x i) (v_ly V) (z k))
    (fun j k => displ3 e (nod_index nx ny 0 j k) 0%R (y j) (z k))
    (fun j k => displ3 e (nod_index nx ny (nx - 1) j k) (v_lx V) (y j) (z k))
    (fun i j k => displ3 e (nod_index nx ny i j k) (x i) (y j) (z k))) with (d := 3);
    try lia; try exact L; intros; f_equal; unfold x, y, z, nx, ny, nz; try (symmetry; assumption); try lra;
    try assumption.
  apply displ3_S; reflexivity.
Qed.

Theorem set_displ2_ok (V : env R) e u : sane V -> geom V -> v_dim V = 2 ->
  let nx := v_nx V in let ny := v_ny V in
  alen u = nx * ny * 2 ->
  exists u', set_displ V e u = Ok u' /\ alen u' = nx * ny * 2 /\
    forall i j c, 0 <= i < nx -> 0 <= j < ny -> 0 <= c < 2 ->
      (bnd2 nx ny i j -> aget u' (node nx ny i j 0 * 2 + c) =
         Some (affine2 (lget e 0) (lget e 1) (lget e 2) (IZR i * v_dx V) (IZR j * v_dy V) c)) /\
      (~ bnd2 nx ny i j -> aget u' (node nx ny i j 0 * 2 + c) = aget u (node nx ny i j 0 * 2 + c)).
Proof.
  intros S G D nx ny L. unfold set_displ. rewrite D. cbn [Z.eqb Pos.eqb].
  pose proof (sa_nx V S). pose proof (sa_ny V S).
  pose proof (ge_x V G) as Gx. pose proof (ge_y V G) as Gy.
  unfold set_displ2_stores. fold nx ny. rewrite dec01.
  apply (edges_ok nx ny ltac:(assumption) ltac:(assumption)
    (fun i => displ2 e i (IZR i * v_dx V)%R 0%R)
    (fun i => displ2 e (i + (ny - 1) * nx) (IZR i * v_dx V)%R (v_ly V))
    (fun i => displ2 e ((i + 1) * nx) 0%R (IZR (i + 1) * v_dy V)%R)
    (fun i => displ2 e ((i + 2) * nx - 1) (v_lx V) (IZR (i + 1) * v_dy V)%R) 2);
    try lia; try exact L; intros i Hi; apply displ2_S; unfold node; try ring; try lra; assumption.
Qed.
