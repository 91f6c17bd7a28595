(** The functions of AssemblyModel.v as pure functions plus lists of stores,
    for every scalar type. *)
From Verif Require Import Base Scalar EllSpec EllInit Grid EllModel EllAsm EllOp AssemblyModel.

(** ** Generic folds *)
Lemma foldM_pair {S1 S2 A} (f : S1 * S2 -> A -> res (S1 * S2)) (g : S2 -> A -> res S2)
  (h : S1 -> A -> res S1) l a v a' v' :
  (forall x a v, In x l -> f (a, v) x = (v' <- g v x ;; a' <- h a x ;; Ok (a', v'))) ->
  foldM g l v = Ok v' -> foldM h l a = Ok a' -> foldM f l (a, v) = Ok (a', v').
Proof.
  revert a v. induction l as [|x l IH]; intros a v F G H; simpl in *; [congruence|].
  rewrite F by auto. destruct (g v x); simpl in *; [|discriminate].
  destruct (h a x); simpl in *; [|discriminate]. apply IH; auto.
Qed.

Lemma foldM_pure {S A} (f : S -> A -> res S) (h : S -> A -> S) l s :
  (forall s x, In x l -> f s x = Ok (h s x)) -> foldM f l s = Ok (fold_left h l s).
Proof.
  revert s. induction l as [|x l IH]; intros s H; simpl; [reflexivity|].
  rewrite H by (simpl; auto). simpl. apply IH. intros; apply H; simpl; auto.
Qed.

Lemma fold_stores {T S A} (f : S * arr T -> A -> res (S * arr T)) (h : S -> A -> S)
  (s : A -> list (Z * T)) l z v :
  (forall z v x, In x l -> f (z, v) x = (vn <- run_stores (s x) v ;; Ok (h z x, vn))) ->
  foldM f l (z, v) = (vn <- run_stores (flat_map s l) v ;; Ok (fold_left h l z, vn)).
Proof.
  revert z v. induction l as [|x l IH]; intros z v F; simpl; [reflexivity|].
  rewrite F by (simpl; auto). rewrite run_stores_app.
  destruct (run_stores (s x) v); simpl; [|reflexivity]. apply IH. intros; apply F; simpl; auto.
Qed.

Lemma foldM_stores {T A} (s : A -> list (Z * T)) l v :
  foldM (fun v x => run_stores (s x) v) l v = run_stores (flat_map s l) v.
Proof.
  revert v. induction l as [|x l IH]; intros v; simpl; [reflexivity|].
  rewrite run_stores_app. destruct (run_stores (s x) v); simpl; auto.
Qed.

Lemma foldM_adds {T} `{Ops T} {A} (s : A -> list (Z * T)) l v :
  foldM (fun v x => run_adds (s x) v) l v = run_adds (flat_map s l) v.
Proof.
  revert v. induction l as [|x l IH]; intros v; simpl; [reflexivity|].
  rewrite run_adds_app. destruct (run_adds (s x) v); simpl; auto.
Qed.

Lemma bind_assoc {A B C} (m : res A) (f : A -> res B) (g : B -> res C) :
  (y <- (x <- m ;; f x) ;; g y) = (x <- m ;; y <- f x ;; g y).
Proof. now destruct m. Qed.

Section Pure.
Context {T : Type} `{OT : Ops T}.

Lemma lget_ltab n (f : Z -> T) i : 0 <= i < n -> lget (ltab n f) i = f i.
Proof.
  intros H. unfold lget, ltab. rewrite nth_indep with (d' := f 0) by (rewrite map_length, length_zrange; lia).
  rewrite map_nth with (d := 0). f_equal. unfold zrange.
  rewrite nth_indep with (d' := 0 + Z.of_nat 0) by (rewrite map_length, seq_length; lia).
  rewrite map_nth with (d := 0%nat) (f := fun k => 0 + Z.of_nat k), seq_nth by lia. lia.
Qed.

Lemma lget_map n (f : Z -> T) i : 0 <= i < n -> lget (map f (zrange 0 n)) i = f i.
Proof. apply lget_ltab. Qed.

Lemma ltab_ext n (f g : Z -> T) : (forall i, 0 <= i < n -> f i = g i) -> ltab n f = ltab n g.
Proof. intros H. apply map_ext_in. intros i Hi. apply in_zrange in Hi. auto. Qed.

Lemma length_ltab n (f : Z -> T) : length (ltab n f) = Z.to_nat n.
Proof. unfold ltab. rewrite map_length, length_zrange. lia. Qed.

(** ** What a sane object looks like *)
(** material of a cell and its plasticity flag *)
Definition mat_at (V : env T) (e : Z) : material T :=
  match nth_error (v_mats V) (match aget (v_etype V) e with Some 0 => 0%nat | _ => 1%nat end) with
  | Some m => m
  | None => let z := ofZ 0 in mkMat z z z z z z z None None
  end.
Definition plastic_at (V : env T) (e : Z) : bool :=
  match m_plast (mat_at V e) with Some b => b | None => false end.

Definition ncells (V : env T) : Z := nelem (v_dim V) (v_nx V) (v_ny V) (v_nz V).

(** the state of the object after construction with valid arguments *)
Record sane (V : env T) : Prop := {
  sa_dim : (v_dim V = 2 /\ v_nz V = 1) \/ (v_dim V = 3 /\ 2 <= v_nz V);
  sa_nx : 2 <= v_nx V;
  sa_ny : 2 <= v_ny V;
  sa_type : v_type V = 0 \/ v_type V = 1;
  sa_mats : forall k, (k < 2)%nat -> exists m b, nth_error (v_mats V) k = Some m /\ m_plast m = Some b;
  sa_etype : forall e, 0 <= e < ncells V -> exists t, aget (v_etype V) e = Some t }.

Lemma get_material_ok V e : sane V -> 0 <= e < ncells V ->
  get_material V e = Ok (mat_at V e, plastic_at V e).
Proof.
  intros S He. unfold get_material, plastic_at, mat_at.
  destruct (sa_etype V S e He) as (t & Et). rewrite Et.
  replace ((v_type V =? 0) || (v_type V =? 1))%bool with true by (destruct (sa_type V S) as [-> | ->]; reflexivity).
  rewrite (rd_aget _ _ _ Et). cbn [bind].
  destruct (sa_mats V S 0%nat) as (m0 & b0 & E0 & P0); [lia|].
  destruct (sa_mats V S 1%nat) as (m1 & b1 & E1 & P1); [lia|].
  destruct (Z.eqb_spec t 0) as [->|Ht].
  - change (Z.to_nat 0) with 0%nat. rewrite E0. cbn [of_option bind]. rewrite P0. reflexivity.
  - change (Z.to_nat 1) with 1%nat. rewrite E1. cbn [of_option bind]. rewrite P1.
    replace (match t with 0 => 0%nat | _ => 1%nat end) with 1%nat by (destruct t; [lia|reflexivity|reflexivity]).
    now rewrite E1, P1.
Qed.

(** ** Cells *)
Implicit Type V : env T.
Lemma in_els2 V ex ey : In (ex, ey) (els2 V) <-> 0 <= ex < v_nx V - 1 /\ 0 <= ey < v_ny V - 1.
Proof.
  unfold els2. rewrite in_flat_map. split.
  - intros (x & Hx & H). apply in_map_iff in H. destruct H as (y & [= <- <-] & Hy).
    apply in_zrange in Hx, Hy. lia.
  - intros (Hx & Hy). exists ex. split; [now apply in_zrange|]. apply in_map_iff.
    exists ey. split; [reflexivity|now apply in_zrange].
Qed.

Lemma in_els3 V ex ey ez : In (ex, ey, ez) (els3 V) <->
  0 <= ex < v_nx V - 1 /\ 0 <= ey < v_ny V - 1 /\ 0 <= ez < v_nz V - 1.
Proof.
  unfold els3. rewrite in_flat_map. split.
  - intros (x & Hx & H). apply in_flat_map in H. destruct H as (y & Hy & H).
    apply in_map_iff in H. destruct H as (z & [= <- <- <-] & Hz).
    apply in_zrange in Hx, Hy, Hz. lia.
  - intros (Hx & Hy & Hz). exists ex. split; [now apply in_zrange|]. apply in_flat_map.
    exists ey. split; [now apply in_zrange|]. apply in_map_iff.
    exists ez. split; [reflexivity|now apply in_zrange].
Qed.

Definition ix2 (V : env T) (e : Z * Z) : Z := let '(ex, ey) := e in glo_elem3D (v_nx V) (v_ny V) ex ey 0.
Definition ix3 (V : env T) (e : Z * Z * Z) : Z :=
  let '(ex, ey, ez) := e in glo_elem3D (v_nx V) (v_ny V) ex ey ez.

Lemma ix2_range V e : v_dim V = 2 -> In e (els2 V) -> 0 <= ix2 V e < ncells V.
Proof.
  destruct e as [ex ey]. intros D H. apply in_els2 in H. unfold ix2, ncells, nelem, glo_elem3D.
  rewrite D. simpl. nia.
Qed.
Lemma ix3_range V e : v_dim V = 3 -> In e (els3 V) -> 0 <= ix3 V e < ncells V.
Proof.
  destruct e as [[ex ey] ez]. intros D H. apply in_els3 in H. unfold ix3, ncells, nelem.
  rewrite D, glo_elem_node. simpl. apply node_range; tauto.
Qed.

Lemma ix3_inj V e e' : In e (els3 V) -> In e' (els3 V) -> ix3 V e = ix3 V e' -> e = e'.
Proof.
  destruct e as [[ex ey] ez], e' as [[ex' ey'] ez']. intros H H' E. apply in_els3 in H, H'.
  unfold ix3 in E. rewrite !glo_elem_node in E. apply node_inj in E; try tauto.
  destruct E as (-> & -> & ->). reflexivity.
Qed.

Lemma ix3_surj V e : v_dim V = 3 -> 2 <= v_nx V -> 2 <= v_ny V -> 0 <= e < ncells V ->
  exists c, In c (els3 V) /\ ix3 V c = e.
Proof.
  intros D Hx Hy He. unfold ncells, nelem in He. rewrite D in He. simpl in He.
  destruct (node_surj (v_nx V - 1) (v_ny V - 1) (v_nz V - 1) e) as (i & j & k & A & B & C & E); try lia.
  exists (i, j, k). split; [now apply in_els3|]. unfold ix3. now rewrite glo_elem_node.
Qed.

(** ** Strain *)
Section Disp.
Variable V : env T.
Variable uf : Z -> T.

Definition disp2 (e : Z * Z) (i : Z) : T := let '(ex, ey) := e in
  uf (corner2 (v_nx V) (v_ny V) ex ey (i / 2) * 2 + i mod 2).
Definition disp3 (e : Z * Z * Z) (i : Z) : T := let '(ex, ey, ez) := e in
  uf (corner3 (v_nx V) (v_ny V) ex ey ez (i / 3) * 3 + i mod 3).
Definition strain2 (e : Z * Z) (g : Z) : list T := strain_of 3 8 (B2 V g) (ltab 8 (disp2 e)).
Definition strain3 (e : Z * Z * Z) (g : Z) : list T := strain_of 6 24 (B3 V g) (ltab 24 (disp3 e)).

Lemma strain2_ok u ex ey g : rep u (v_nx V * v_ny V * 2) uf -> In (ex, ey) (els2 V) ->
  get_strain2D V u ex ey g = Ok (strain2 (ex, ey) g).
Proof.
  intros U H. apply in_els2 in H. unfold get_strain2D, elem_disp2.
  rewrite (mapM_ok _ (disp2 (ex, ey))); [reflexivity|].
  intros i Hi. apply in_zrange in Hi. assert (0 <= i / 2 < 4) by (Z.div_mod_to_equations; lia).
  rewrite (sn2_corner _ (v_ny V)) by assumption. unfold disp2. eapply rep_rd; [exact U|].
  pose proof (corner2_range (v_nx V) (v_ny V) ex ey (i / 2)). pose proof (Z.mod_pos_bound i 2). nia.
Qed.

Lemma strain3_ok u ex ey ez g : rep u (v_nx V * v_ny V * v_nz V * 3) uf -> In (ex, ey, ez) (els3 V) ->
  get_strain3D V u ex ey ez g = Ok (strain3 (ex, ey, ez) g).
Proof.
  intros U H. apply in_els3 in H. unfold get_strain3D, elem_disp3.
  rewrite (mapM_ok _ (disp3 (ex, ey, ez))); [reflexivity|].
  intros i Hi. apply in_zrange in Hi. assert (0 <= i / 3 < 8) by (Z.div_mod_to_equations; lia).
  rewrite sn3_corner by assumption. unfold disp3. eapply rep_rd; [exact U|].
  pose proof (corner3_range (v_nx V) (v_ny V) (v_nz V) ex ey ez (i / 3)). pose proof (Z.mod_pos_bound i 3). nia.
Qed.

(** ** Stress *)
Definition sig2 (e : Z * Z) (eps : list T) : list T :=
  stress2 (m_E (mat_at V (ix2 V e))) (m_nu (mat_at V (ix2 V e))) eps.

Lemma stress2_ok ex ey g eps : sane V -> v_dim V = 2 -> In (ex, ey) (els2 V) ->
  get_stress2D V ex ey g eps = Ok (false, sig2 (ex, ey) eps).
Proof.
  intros S D H. unfold get_stress2D. rewrite get_material_ok; [reflexivity|exact S|].
  now apply (ix2_range V (ex, ey)).
Qed.

Variable of : Z -> T.   (* committed internal variables, by address *)

Definition step3 (e : Z * Z * Z) (g : Z) (eps : list T) : pstep T :=
  plastic_step (mat_at V (ix3 V e)) eps (ltab 6 (fun i => of (intvar_ix (ix3 V e) g i)))
    (of (intvar_ix (ix3 V e) g 6)).
Definition sig3 (e : Z * Z * Z) (g : Z) (eps : list T) : list T :=
  let m := mat_at V (ix3 V e) in
  if plastic_at V (ix3 V e) then ps_stress (step3 e g eps) else lin_stress3 (m_lambda m) (m_mu m) eps.
Definition nl3 (e : Z * Z * Z) (g : Z) (eps : list T) : bool :=
  if plastic_at V (ix3 V e) then ps_nl (step3 e g eps) else false.
(** the seven new variables of a Gauss point *)
Definition newv (e : Z * Z * Z) (g : Z) (eps : list T) (i : Z) : T :=
  if i =? 6 then ps_alpha (step3 e g eps) else lget (ps_eps_p (step3 e g eps)) i.
Definition st3 (e : Z * Z * Z) (g : Z) (eps : list T) : list (Z * T) :=
  if plastic_at V (ix3 V e)
  then map (fun i => (intvar_ix (ix3 V e) g i, newv e g eps i)) (zrange 0 7) else [].

(** committed variables of the plastic cells are initialised *)
Definition old_ok (vold : arr T) : Prop :=
  forall e g i, 0 <= e < ncells V -> 0 <= g < 8 -> 0 <= i < 7 -> plastic_at V e = true ->
    aget vold (intvar_ix e g i) = Some (of (intvar_ix e g i)).

Lemma stress3_ok vold vnew ex ey ez g eps : sane V -> v_dim V = 3 -> old_ok vold ->
  In (ex, ey, ez) (els3 V) -> 0 <= g < 8 ->
  get_stress3D V vold vnew ex ey ez g eps =
  (vn <- run_stores (st3 (ex, ey, ez) g eps) vnew ;;
   Ok (nl3 (ex, ey, ez) g eps, sig3 (ex, ey, ez) g eps, vn)).
Proof.
  intros S D O H Hg. pose proof (ix3_range V _ D H) as He.
  unfold get_stress3D. change (glo_elem3D (v_nx V) (v_ny V) ex ey ez) with (ix3 V (ex, ey, ez)).
  rewrite get_material_ok by assumption. cbn [bind fst snd].
  unfold st3, nl3, sig3. destruct (plastic_at V (ix3 V (ex, ey, ez))) eqn:P; [|reflexivity].
  rewrite (mapM_ok _ (fun i => of (intvar_ix (ix3 V (ex, ey, ez)) g i))).
  2:{ intros i Hi. apply in_zrange in Hi. apply rd_aget. apply O; try assumption. lia. }
  cbn [bind]. rewrite (rd_aget vold _ (of (intvar_ix (ix3 V (ex, ey, ez)) g 6))) by (apply O; try assumption; lia).
  cbn [bind]. reflexivity.
Qed.

Lemma st3_range e g eps j x : v_dim V = 3 -> In e (els3 V) -> 0 <= g < 8 ->
  In (j, x) (st3 e g eps) -> 0 <= j < ncells V * 56.
Proof.
  intros D H Hg. unfold st3. destruct plastic_at; [|simpl; tauto].
  intros Hj. apply in_map_iff in Hj. destruct Hj as (i & [= <- _] & Hi). apply in_zrange in Hi.
  pose proof (ix3_range V _ D H). unfold intvar_ix. lia.
Qed.

(** ** Element residual *)
Definition be2 (e : Z * Z) : list T :=
  fold_left (fun be g => add_rhs 3 8 (B2 V g) (sig2 e (strain2 e g)) (wg2 V) be) (zrange 0 4) (zeros 8).
Definition be3 (e : Z * Z * Z) : list T :=
  fold_left (fun be g => add_rhs 6 24 (B3 V g) (sig3 e g (strain3 e g)) (wg3 V) be) (zrange 0 8) (zeros 24).
(** the trial variables written by one pass over a cell *)
Definition cell_st (e : Z * Z * Z) : list (Z * T) :=
  flat_map (fun g => st3 e g (strain3 e g)) (zrange 0 8).

Lemma last_indep {A} (k : list A) y d d' : last (y :: k) d = last (y :: k) d'.
Proof.
  revert y. induction k as [|z k IH]; intros y; [reflexivity|]. apply IH.
Qed.

Lemma fold_left_pair {A S1 S2} (h1 : S1 -> A -> S1) (h2 : A -> S2) l z w :
  fold_left (fun st x => (h1 (fst st) x, h2 x)) l (z, w) =
  (fold_left h1 l z, last (map h2 l) w).
Proof.
  revert z w. induction l as [|x l IH]; intros z w; [reflexivity|].
  cbn [fold_left fst]. rewrite IH. f_equal. destruct l as [|y l]; [reflexivity|].
  cbn [map]. change (last (h2 x :: h2 y :: map h2 l) w) with (last (h2 y :: map h2 l) w).
  apply last_indep.
Qed.

Lemma elem_rhs2_ok u ex ey : sane V -> v_dim V = 2 -> rep u (v_nx V * v_ny V * 2) uf ->
  In (ex, ey) (els2 V) -> get_elem_rhs2D V u ex ey = Ok (be2 (ex, ey), false).
Proof.
  intros S D U H. unfold get_elem_rhs2D.
  rewrite (foldM_pure _ (fun st g => (add_rhs 3 8 (B2 V g) (sig2 (ex, ey) (strain2 (ex, ey) g)) (wg2 V) (fst st), false))).
  - reflexivity.
  - intros s g _. rewrite (strain2_ok u) by assumption. cbn [bind].
    rewrite stress2_ok by assumption. reflexivity.
Qed.

Lemma elem_rhs3_ok u vold vnew ex ey ez : sane V -> v_dim V = 3 ->
  rep u (v_nx V * v_ny V * v_nz V * 3) uf -> old_ok vold -> In (ex, ey, ez) (els3 V) ->
  let e := (ex, ey, ez) in
  get_elem_rhs3D V u vold vnew ex ey ez =
  (vn <- run_stores (cell_st e) vnew ;; Ok (be3 e, nl3 e 7 (strain3 e 7), vn)).
Proof.
  intros S D U O H e. unfold get_elem_rhs3D.
  rewrite (fold_stores _ (fun st g => (add_rhs 6 24 (B3 V g) (sig3 e g (strain3 e g)) (wg3 V) (fst st),
                                       nl3 e g (strain3 e g))) (fun g => st3 e g (strain3 e g))).
  - rewrite (fold_left_pair (fun z g => add_rhs 6 24 (B3 V g) (sig3 e g (strain3 e g)) (wg3 V) z)
               (fun g => nl3 e g (strain3 e g))). reflexivity.
  - intros z v g Hg. apply in_zrange in Hg. rewrite (strain3_ok u) by assumption. cbn [bind fst snd].
    rewrite stress3_ok by assumption. fold e. rewrite bind_assoc. reflexivity.
Qed.
End Disp.
End Pure.
