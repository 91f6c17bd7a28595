(** The cells of a constructed object are classified by their midpoints; symmetries. *)
From Coq Require Import ZifyBool Reals Lra.
From Verif Require Import Base Scalar EllSpec EllInit EllModel EllAsm EllFinal EllProps Grid AssemblyModel AsmPure AsmRun MicroModel OutputModel NewtonBase ApiBase ApiRun ApiHist Build Swap Invalid ApiSpec ApiCases.
Open Scope Z_scope.

Section Built.
Context {T : Type} `{OT : Ops T}.
Lemma arg_lget (l : list T) i x : arg l i = Ok x -> x = lget l i.
Proof.
  unfold arg, lget. destruct (i <? 0); [discriminate|]. destruct (nth_error l (Z.to_nat i)) eqn:E; [|discriminate]. intros [= <-]. symmetry. now apply nth_error_nth.
Qed.
Lemma arg_znth (l : list Z) i x : arg l i = Ok x -> x = znth l i.
Proof.
  unfold arg, znth. destruct (i <? 0); [discriminate|]. destruct (nth_error l (Z.to_nat i)) eqn:E; [|discriminate]. intros [= <-]. symmetry. now apply nth_error_nth.
Qed.
(** whatever the arguments, an object that came out of the constructor has this geometry *)
Record built (dim : Z) (size : list Z) (mtype : Z) (mp : list T) (V : env T) : Prop := {
  bt_dim : v_dim V = dim; bt_nx : v_nx V = znth size 0; bt_ny : v_ny V = znth size 1; bt_nz : v_nz V = (if dim =? 2 then 1 else znth size 2);
  bt_lx : v_lx V = lget mp 0; bt_ly : v_ly V = lget mp 1; bt_lz : dim <> 2 -> v_lz V = lget mp 2;
  bt_dx : v_dx V = odiv (v_lx V) (ofZ (v_nx V - 1)); bt_dy : v_dy V = odiv (v_ly V) (ofZ (v_ny V - 1)); bt_dz : v_dz V = odiv (v_lz V) (ofZ (v_nz V - 1));
  bt_width : v_width V = lget mp 3; bt_type : v_type V = mtype;
  bt_types2 : dim = 2 -> forall ex ey, 0 <= ex < v_nx V - 1 -> 0 <= ey < v_ny V - 1 -> aget (v_etype V) (ey * (v_nx V - 1) + ex) = Some (class2 V ex ey);
  bt_types3 : dim = 3 -> forall ex ey ez, 0 <= ex < v_nx V - 1 -> 0 <= ey < v_ny V - 1 -> 0 <= ez < v_nz V - 1 ->
    aget (v_etype V) (ez * (v_nx V - 1) * (v_ny V - 1) + ey * (v_nx V - 1) + ex) = Some (class3 V ex ey ez) }.
Lemma construct_built fuel orc j dim size mtype mp mt ps o : construct fuel orc j dim size mtype mp mt ps = Ok o ->
  (dim = 2 \/ dim = 3) /\ (mtype = 0 \/ mtype = 1) /\ built dim size mtype mp (o_env o).
Proof.
  intros H. unfold construct in H. destruct (make_env j dim size mtype mp) as [V|] eqn:EV; cbn [bind] in H; [|discriminate].
  destruct (make_env_geo _ _ _ _ _ _ EV) as (Gd & Gt & Ge & _).
  destruct (negb _) eqn:Dm in H; [discriminate|]. destruct (negb _) eqn:Mt in H; [discriminate|].
  apply bind_ok in H. destruct H as (pm & Ep & H). apply bind_ok in H. destruct H as (l & M & H). apply bind_ok in H. destruct H as (et & Ef & H).
  apply bind_ok in H. destruct H as (A & _ & H). apply bind_ok in H. destruct H as (wc & Ec & H).
  cbn [v_dim v_nx v_ny v_nz v_lx v_ly v_lz v_dx v_dy v_dz v_width v_inv_tol v_type v_etype] in *.
  assert (D : dim = 2 \/ dim = 3) by lia. assert (Ty : mtype = 0 \/ mtype = 1) by lia.
  set (V0 := sw l V). change (fill_types V0 = Ok et) in Ef. set (V1 := we et V0).
  assert (Eo : o_env o = V1) by (injection H as <-; reflexivity). clear H.
  destruct (fill_types_ok V0) as (a & Ea & La & C2 & C3); [change (v_dim V = 2 \/ v_dim V = 3); rewrite Gd; exact D|change (v_type V = 0 \/ v_type V = 1); rewrite Gt; exact Ty|change (alen (v_etype V) = nelem (v_dim V) (v_nx V) (v_ny V) (v_nz V)); rewrite Ge, Gd; reflexivity|].
  rewrite Ef in Ea. injection Ea as <-. change (v_dim V0) with (v_dim V) in C2, C3. rewrite Eo. split; [exact D|]. split; [exact Ty|].
  unfold make_env in EV. apply bind_ok in EV. destruct EV as (nx & Ex & EV). apply bind_ok in EV. destruct EV as (ny & Ey & EV).
  apply bind_ok in EV. destruct EV as (nz & Ez & EV). apply bind_ok in EV. destruct EV as (lx & Elx & EV). apply bind_ok in EV. destruct EV as (ly & Ely & EV).
  apply bind_ok in EV. destruct EV as (lz & Elz & EV). apply bind_ok in EV. destruct EV as (wi & Ew & EV). apply bind_ok in EV. destruct EV as (tol & _ & EV).
  constructor.
  - exact Gd.
  - change (v_nx V = znth size 0). injection EV as <-. now apply arg_znth.
  - change (v_ny V = znth size 1). injection EV as <-. now apply arg_znth.
  - change (v_nz V = (if dim =? 2 then 1 else znth size 2)). injection EV as <-. destruct (dim =? 2); [cbn; congruence|now apply arg_znth].
  - change (v_lx V = lget mp 0). injection EV as <-. now apply arg_lget.
  - change (v_ly V = lget mp 1). injection EV as <-. now apply arg_lget.
  - change (dim <> 2 -> v_lz V = lget mp 2). injection EV as <-. intros N. replace (dim =? 2) with false in Elz by lia. now apply arg_lget.
  - change (v_dx V = odiv (v_lx V) (ofZ (v_nx V - 1))). now injection EV as <-.
  - change (v_dy V = odiv (v_ly V) (ofZ (v_ny V - 1))). now injection EV as <-.
  - change (v_dz V = odiv (v_lz V) (ofZ (v_nz V - 1))). now injection EV as <-.
  - change (v_width V = lget mp 3). injection EV as <-. now apply arg_lget.
  - exact Gt.
  - intros E ex ey Hx Hy. specialize (C2 ltac:(congruence) ex ey). unfold ix2, glo_elem3D in C2.
    change (v_nx V1) with (v_nx V0) in *. change (v_ny V1) with (v_ny V0) in *. change (v_etype V1) with et. change (class2 V1 ex ey) with (class2 V0 ex ey).
    replace (ey * (v_nx V0 - 1) + ex) with (0 * (v_nx V0 - 1) * (v_ny V0 - 1) + ey * (v_nx V0 - 1) + ex) by ring. apply C2, in_els2. lia.
  - intros E ex ey ez Hx Hy Hz. specialize (C3 ltac:(congruence) ex ey ez). unfold ix3, glo_elem3D in C3.
    change (v_nx V1) with (v_nx V0) in *. change (v_ny V1) with (v_ny V0) in *. change (v_nz V1) with (v_nz V0) in *. change (v_etype V1) with et. change (class3 V1 ex ey ez) with (class3 V0 ex ey ez).
    apply C3, in_els3. lia.
Qed.
End Built.

Open Scope R_scope.
(** the midpoint of the i-th of n - 1 equal parts of a side of length l *)
Definition mid (l : R) (n i : Z) : R := (IZR i + / 2) * l / IZR (n - 1).
Definition in_disc (lx ly w x y : R) : Prop := (x - lx / 2) * (x - lx / 2) + (y - ly / 2) * (y - ly / 2) < w * w.
Definition in_ball (lx ly lz w x y z : R) : Prop := (x - lx / 2) * (x - lx / 2) + (y - ly / 2) * (y - ly / 2) + (z - lz / 2) * (z - lz / 2) < w * w.


Lemma mid_eq l n i : ofZ i * odiv l (ofZ (n - 1)) + odiv (odiv l (ofZ (n - 1))) (ofZ 2) = mid l n i.
Proof. unfold mid. change (IZR i * (l / IZR (n - 1)) + l / IZR (n - 1) / 2 = (IZR i + / 2) * l / IZR (n - 1)). unfold Rdiv. ring. Qed.
Lemma class_iff (a b : R) (P : Prop) : (a < b <-> P) -> (Some (if oltb a b then 1%Z else 0%Z) = Some 1%Z <-> P) /\ (Some (if oltb a b then 1%Z else 0%Z) = Some 0%Z <-> ~ P).
Proof.
  intros H. destruct (oltb a b) eqn:E.
  - apply Rltb_true in E. split; split; intros X; first [reflexivity|discriminate|tauto].
  - apply Rltb_false in E. split; split; intros X; try discriminate; try reflexivity.
    + exfalso. apply H in X. lra.
    + intros Y. apply H in Y. lra.
Qed.

(** symmetries *)
Lemma mid_mirror l n i : (2 <= n)%Z -> mid l n (n - 2 - i) = l - mid l n i.
Proof.
  intros Hn. unfold mid. assert (IZR (n - 1) <> 0) by (apply not_0_IZR; lia). replace (n - 2 - i)%Z with ((n - 1) - 1 - i)%Z by ring. rewrite !minus_IZR. rewrite minus_IZR in H. field. lra.
Qed.
Lemma same_class (a b : option Z) (P Q : Prop) : (a = Some 1%Z <-> P) /\ (a = Some 0%Z <-> ~ P) -> (b = Some 1%Z <-> Q) /\ (b = Some 0%Z <-> ~ Q) -> (P <-> Q) -> (P \/ ~ P) -> a = b.
Proof.
  intros (A1 & A0) (B1 & B0) E [p|n].
  - rewrite (proj2 A1 p). symmetry. now apply B1, E.
  - rewrite (proj2 A0 n). symmetry. apply B0. tauto.
Qed.
Lemma lt_dec2 (a b : R) : a < b \/ ~ a < b.
Proof. destruct (Rlt_le_dec a b); [now left|right; lra]. Qed.
Section Geo.
Variables (fuel : nat) (orc : Z -> peek) (j : junk R) (mtype : Z) (mp : list R) (mt : list Z) (ps : list R) (o : obj R).
Theorem cells2 nx ny nz ex ey : construct fuel orc j 2 [nx; ny; nz] mtype mp mt ps = Ok o -> (0 <= ex < nx - 1)%Z -> (0 <= ey < ny - 1)%Z ->
  let inside := if (mtype =? 0)%Z then in_disc (lget mp 0) (lget mp 1) (lget mp 3) (mid (lget mp 0) nx ex) (mid (lget mp 1) ny ey) else mid (lget mp 1) ny ey < lget mp 3 in
  (aget (v_etype (o_env o)) (ey * (nx - 1) + ex) = Some 1%Z <-> inside) /\ (aget (v_etype (o_env o)) (ey * (nx - 1) + ex) = Some 0%Z <-> ~ inside).
Proof.
  intros H Hx Hy inside. destruct (construct_built _ _ _ _ _ _ _ _ _ _ H) as (_ & Ty & B). pose proof (bt_nx _ _ _ _ _ B) as Ex. pose proof (bt_ny _ _ _ _ _ B) as Ey.
  change (znth [nx; ny; nz] 0) with nx in Ex. change (znth [nx; ny; nz] 1) with ny in Ey.
  pose proof (bt_types2 _ _ _ _ _ B eq_refl ex ey) as Bt. rewrite Ex, Ey in Bt. rewrite Bt by lia.
  unfold class2, elem_type2D. rewrite (bt_type _ _ _ _ _ B), (bt_dx _ _ _ _ _ B), (bt_dy _ _ _ _ _ B), (bt_width _ _ _ _ _ B), Ex, Ey, (bt_lx _ _ _ _ _ B), (bt_ly _ _ _ _ _ B).
  rewrite !mid_eq. unfold inside. destruct (Z.eqb_spec mtype 0) as [E0|N]; [|replace (mtype =? 1)%Z with true by lia].
  - apply class_iff. unfold in_disc. set (a := mid _ nx ex). set (b := mid _ ny ey).
    change ((lget mp 0 / 2 - a) * (lget mp 0 / 2 - a) + (lget mp 1 / 2 - b) * (lget mp 1 / 2 - b) < lget mp 3 * lget mp 3 <->
      (a - lget mp 0 / 2) * (a - lget mp 0 / 2) + (b - lget mp 1 / 2) * (b - lget mp 1 / 2) < lget mp 3 * lget mp 3).
    split; intros; nra.
  - apply class_iff. tauto.
Qed.
Theorem cells3 nx ny nz ex ey ez : construct fuel orc j 3 [nx; ny; nz] mtype mp mt ps = Ok o -> (0 <= ex < nx - 1)%Z -> (0 <= ey < ny - 1)%Z -> (0 <= ez < nz - 1)%Z ->
  let inside := if (mtype =? 0)%Z then in_ball (lget mp 0) (lget mp 1) (lget mp 2) (lget mp 3) (mid (lget mp 0) nx ex) (mid (lget mp 1) ny ey) (mid (lget mp 2) nz ez) else mid (lget mp 1) ny ey < lget mp 3 in
  let t := aget (v_etype (o_env o)) (ez * (nx - 1) * (ny - 1) + ey * (nx - 1) + ex) in
  (t = Some 1%Z <-> inside) /\ (t = Some 0%Z <-> ~ inside).
Proof.
  intros H Hx Hy Hz inside t. destruct (construct_built _ _ _ _ _ _ _ _ _ _ H) as (_ & Ty & B). pose proof (bt_nx _ _ _ _ _ B) as Ex. pose proof (bt_ny _ _ _ _ _ B) as Ey.
  pose proof (bt_nz _ _ _ _ _ B) as Ez.
  change (znth [nx; ny; nz] 0) with nx in Ex. change (znth [nx; ny; nz] 1) with ny in Ey. change (v_nz (o_env o) = nz) in Ez.
  pose proof (bt_types3 _ _ _ _ _ B eq_refl ex ey ez) as Bt. rewrite Ex, Ey, Ez in Bt. unfold t. rewrite Bt by lia. clear t.
  unfold class3, elem_type3D. rewrite (bt_type _ _ _ _ _ B), (bt_dx _ _ _ _ _ B), (bt_dy _ _ _ _ _ B), (bt_dz _ _ _ _ _ B), (bt_width _ _ _ _ _ B), Ex, Ey, Ez, (bt_lx _ _ _ _ _ B), (bt_ly _ _ _ _ _ B), (bt_lz _ _ _ _ _ B) by lia.
  rewrite !mid_eq. unfold inside. destruct (Z.eqb_spec mtype 0) as [E0|N]; [|replace (mtype =? 1)%Z with true by lia].
  - apply class_iff. unfold in_ball. set (a := mid _ nx ex). set (b := mid _ ny ey). set (c := mid _ nz ez).
    change ((lget mp 0 / 2 - a) * (lget mp 0 / 2 - a) + (lget mp 1 / 2 - b) * (lget mp 1 / 2 - b) + (lget mp 2 / 2 - c) * (lget mp 2 / 2 - c) < lget mp 3 * lget mp 3 <->
      (a - lget mp 0 / 2) * (a - lget mp 0 / 2) + (b - lget mp 1 / 2) * (b - lget mp 1 / 2) + (c - lget mp 2 / 2) * (c - lget mp 2 / 2) < lget mp 3 * lget mp 3).
    split; intros; nra.
  - apply class_iff. tauto.
Qed.

Theorem mirror2 nx ny nz ex ey : construct fuel orc j 2 [nx; ny; nz] mtype mp mt ps = Ok o -> (0 <= ex < nx - 1)%Z -> (0 <= ey < ny - 1)%Z ->
  let t ex ey := aget (v_etype (o_env o)) (ey * (nx - 1) + ex) in
  t (nx - 2 - ex)%Z ey = t ex ey /\ (mtype = 0%Z -> t ex (ny - 2 - ey)%Z = t ex ey).
Proof.
  intros H Hx Hy t. unfold t. split.
  - apply (same_class _ _ _ _ (cells2 nx ny nz (nx - 2 - ex) ey H ltac:(lia) Hy) (cells2 nx ny nz ex ey H Hx Hy)).
    + destruct (mtype =? 0)%Z; [|tauto]. unfold in_disc. rewrite mid_mirror by lia. split; intros; nra.
    + destruct (mtype =? 0)%Z; apply lt_dec2.
  - intros E0. apply (same_class _ _ _ _ (cells2 nx ny nz ex (ny - 2 - ey) H Hx ltac:(lia)) (cells2 nx ny nz ex ey H Hx Hy)).
    + destruct (Z.eqb_spec mtype 0); [|lia]. unfold in_disc. rewrite mid_mirror by lia. split; intros; nra.
    + destruct (mtype =? 0)%Z; apply lt_dec2.
Qed.
Theorem mirror3 nx ny nz ex ey ez : construct fuel orc j 3 [nx; ny; nz] mtype mp mt ps = Ok o -> (0 <= ex < nx - 1)%Z -> (0 <= ey < ny - 1)%Z -> (0 <= ez < nz - 1)%Z ->
  let t ex ey ez := aget (v_etype (o_env o)) (ez * (nx - 1) * (ny - 1) + ey * (nx - 1) + ex) in
  t (nx - 2 - ex)%Z ey ez = t ex ey ez /\ t ex ey (nz - 2 - ez)%Z = t ex ey ez /\ (mtype = 0%Z -> t ex (ny - 2 - ey)%Z ez = t ex ey ez).
Proof.
  intros H Hx Hy Hz t. unfold t. split; [|split].
  - apply (same_class _ _ _ _ (cells3 nx ny nz (nx - 2 - ex) ey ez H ltac:(lia) Hy Hz) (cells3 nx ny nz ex ey ez H Hx Hy Hz)).
    + destruct (mtype =? 0)%Z; [|tauto]. unfold in_ball. rewrite mid_mirror by lia. split; intros; nra.
    + destruct (mtype =? 0)%Z; apply lt_dec2.
  - apply (same_class _ _ _ _ (cells3 nx ny nz ex ey (nz - 2 - ez) H Hx Hy ltac:(lia)) (cells3 nx ny nz ex ey ez H Hx Hy Hz)).
    + destruct (mtype =? 0)%Z; [|tauto]. unfold in_ball. rewrite mid_mirror by lia. split; intros; nra.
    + destruct (mtype =? 0)%Z; apply lt_dec2.
  - intros E0. apply (same_class _ _ _ _ (cells3 nx ny nz ex (ny - 2 - ey) ez H Hx ltac:(lia) Hz) (cells3 nx ny nz ex ey ez H Hx Hy Hz)).
    + destruct (Z.eqb_spec mtype 0); [|lia]. unfold in_ball. rewrite mid_mirror by lia. split; intros; nra.
    + destruct (mtype =? 0)%Z; apply lt_dec2.
Qed.
End Geo.
