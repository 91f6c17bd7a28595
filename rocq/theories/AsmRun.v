(** The loops over all cells: averages, residual, trial variables; every scalar type. *)
From Coq Require Import ZifyBool.
From Verif Require Import Base Scalar EllSpec EllInit Grid EllModel EllAsm EllOp AssemblyModel AsmPure AsmBnd.
Open Scope Z_scope.

Section Run.
Context {T : Type} `{OT : Ops T}.
Variable V : env T.
Variable uf : Z -> T.
Variable of : Z -> T.
Hypothesis S : sane V.

(** ** Trial variables *)
Definition visit : list (Z * T) := flat_map (cell_st V uf of) (els3 V).

Lemma in_visit j x : In (j, x) visit <-> exists e g i, In e (els3 V) /\ 0 <= g < 8 /\ 0 <= i < 7 /\
  plastic_at V (ix3 V e) = true /\ j = intvar_ix (ix3 V e) g i /\
  x = newv V of e g (strain3 V uf e g) i.
Proof.
  unfold visit. rewrite in_flat_map. split.
  - intros (e & He & H). unfold cell_st in H. apply in_flat_map in H. destruct H as (g & Hg & H).
    apply in_zrange in Hg. unfold st3 in H. destruct plastic_at eqn:P; [|now simpl in H].
    apply in_map_iff in H. destruct H as (i & [= <- <-] & Hi). apply in_zrange in Hi.
    exists e, g, i. auto 10.
  - intros (e & g & i & He & Hg & Hi & P & -> & ->). exists e. split; [exact He|].
    apply in_flat_map. exists g. split; [now apply in_zrange|]. unfold st3. rewrite P.
    apply in_map_iff. exists i. split; [reflexivity|now apply in_zrange].
Qed.

Lemma visit_ok vnew : v_dim V = 3 -> alen vnew = ncells V * 56 ->
  exists vnew', run_stores visit vnew = Ok vnew' /\ alen vnew' = ncells V * 56 /\
    forall e g i, In e (els3 V) -> 0 <= g < 8 -> 0 <= i < 7 ->
      aget vnew' (intvar_ix (ix3 V e) g i) =
      if plastic_at V (ix3 V e) then Some (newv V of e g (strain3 V uf e g) i)
      else aget vnew (intvar_ix (ix3 V e) g i).
Proof.
  intros D L. destruct (run_stores_ok visit vnew) as (v & E & L' & G).
  { intros j x H. apply in_visit in H. destruct H as (e & g & i & He & Hg & Hi & _ & -> & _).
    pose proof (ix3_range V e D He). unfold intvar_ix. lia. }
  exists v. split; [exact E|]. split; [congruence|]. intros e g i He Hg Hi. rewrite G.
  assert (U : forall e' g' i', In e' (els3 V) -> 0 <= g' < 8 -> 0 <= i' < 7 ->
    intvar_ix (ix3 V e) g i = intvar_ix (ix3 V e') g' i' -> e' = e /\ g' = g /\ i' = i).
  { intros e' g' i' He' Hg' Hi' Q. apply intvar_inj in Q; try assumption.
    destruct Q as (Q & -> & ->). apply ix3_inj in Q; auto. }
  destruct (plastic_at V (ix3 V e)) eqn:P.
  - rewrite (last_write_unique visit _ (newv V of e g (strain3 V uf e g) i)); [reflexivity| |].
    + apply in_visit. exists e, g, i. auto 10.
    + intros v' H. apply in_visit in H. destruct H as (e' & g' & i' & He' & Hg' & Hi' & _ & Q & ->).
      apply U in Q; try assumption. destruct Q as (-> & -> & ->). reflexivity.
  - rewrite last_write_none; [reflexivity|]. intros v' H. apply in_visit in H.
    destruct H as (e' & g' & i' & He' & Hg' & Hi' & P' & Q & _).
    apply U in Q; try assumption. destruct Q as (-> & -> & ->). congruence.
Qed.

(** ** Averages *)
Definition aux3 (e : Z * Z * Z) : list T :=
  fold_left (fun a g => add_ave 6 (sig3 V of e g (strain3 V uf e g)) (wg3 V) a) (zrange 0 8) (zeros 6).
Definition aux2 (e : Z * Z) : list T :=
  fold_left (fun a g => add_ave 3 (sig2 V e (strain2 V uf e g)) (wg2 V) a) (zrange 0 4) (zeros 3).
Definition eaux3 (e : Z * Z * Z) : list T :=
  fold_left (fun a g => add_ave 6 (strain3 V uf e g) (wg3 V) a) (zrange 0 8) (zeros 6).
Definition eaux2 (e : Z * Z) : list T :=
  fold_left (fun a g => add_ave 3 (strain2 V uf e g) (wg2 V) a) (zrange 0 4) (zeros 3).

Definition area : T := omul (v_lx V) (v_ly V).
Definition ave3 (a : Z * Z * Z -> list T) : list T :=
  ltab 6 (fun v => odiv (lget (fold_left (fun s e => add_vec 6 (a e) s) (els3 V) (zeros 6)) v) area).
Definition ave2 (a : Z * Z -> list T) : list T :=
  ltab 3 (fun v => odiv (lget (fold_left (fun s e => add_vec 3 (a e) s) (els2 V) (zeros 3)) v) area).

Lemma ave_strain3_ok u : v_dim V = 3 -> rep u (v_nx V * v_ny V * v_nz V * 3) uf ->
  calc_ave_strain V u = Ok (ave3 eaux3).
Proof.
  intros D U. unfold calc_ave_strain, nvoi. rewrite D. cbn [Z.eqb Pos.eqb].
  rewrite (foldM_pure _ (fun s e => add_vec 6 (eaux3 e) s)); [reflexivity|].
  intros s [[ex ey] ez] He.
  rewrite (foldM_pure _ (fun a g => add_ave 6 (strain3 V uf (ex, ey, ez) g) (wg3 V) a)); [reflexivity|].
  intros a g _. now rewrite (strain3_ok V uf).
Qed.

Lemma ave_strain2_ok u : v_dim V = 2 -> rep u (v_nx V * v_ny V * 2) uf ->
  calc_ave_strain V u = Ok (ave2 eaux2).
Proof.
  intros D U. unfold calc_ave_strain, nvoi. rewrite D. cbn [Z.eqb Pos.eqb].
  rewrite (foldM_pure _ (fun s e => add_vec 3 (eaux2 e) s)); [reflexivity|].
  intros s [ex ey] He.
  rewrite (foldM_pure _ (fun a g => add_ave 3 (strain2 V uf (ex, ey) g) (wg2 V) a)); [reflexivity|].
  intros a g _. now rewrite (strain2_ok V uf).
Qed.

Lemma ave_stress2_ok u vold vnew : v_dim V = 2 -> rep u (v_nx V * v_ny V * 2) uf ->
  calc_ave_stress V u vold vnew = Ok (ave2 aux2, vnew).
Proof.
  intros D U. unfold calc_ave_stress, nvoi. rewrite D. cbn [Z.eqb Pos.eqb].
  rewrite (fold_stores _ (fun s e => add_vec 3 (aux2 e) s) (fun _ => [])).
  - replace (flat_map (fun _ => []) (els2 V)) with (@nil (Z * T)); [reflexivity|].
    clear. induction (els2 V); simpl; auto.
  - intros s v [ex ey] He.
    rewrite (foldM_pure _ (fun a g => add_ave 3 (sig2 V (ex, ey) (strain2 V uf (ex, ey) g)) (wg2 V) a)); [reflexivity|].
    intros a g _. rewrite (strain2_ok V uf) by assumption. cbn [bind].
    rewrite stress2_ok by assumption. reflexivity.
Qed.

Lemma ave_stress3_eq u vold vnew : v_dim V = 3 -> rep u (v_nx V * v_ny V * v_nz V * 3) uf ->
  old_ok V of vold ->
  calc_ave_stress V u vold vnew = (vn <- run_stores visit vnew ;; Ok (ave3 aux3, vn)).
Proof.
  intros D U O. unfold calc_ave_stress, nvoi. rewrite D. cbn [Z.eqb Pos.eqb].
  rewrite (fold_stores _ (fun s e => add_vec 6 (aux3 e) s) (cell_st V uf of)).
  - rewrite bind_assoc. reflexivity.
  - intros s v [[ex ey] ez] He.
    rewrite (fold_stores _ (fun a g => add_ave 6 (sig3 V of (ex, ey, ez) g (strain3 V uf (ex, ey, ez) g)) (wg3 V) a)
       (fun g => st3 V of (ex, ey, ez) g (strain3 V uf (ex, ey, ez) g))).
    + rewrite bind_assoc. reflexivity.
    + intros a v' g Hg. apply in_zrange in Hg. rewrite (strain3_ok V uf) by assumption. cbn [bind fst snd].
      rewrite (stress3_ok V uf of) by assumption. rewrite bind_assoc. reflexivity.
Qed.

Theorem ave_stress3_ok u vold vnew : v_dim V = 3 -> rep u (v_nx V * v_ny V * v_nz V * 3) uf ->
  old_ok V of vold -> alen vnew = ncells V * 56 ->
  exists vnew', calc_ave_stress V u vold vnew = Ok (ave3 aux3, vnew') /\ run_stores visit vnew = Ok vnew'.
Proof.
  intros D U O L. rewrite (ave_stress3_eq u vold vnew D U O).
  destruct (visit_ok vnew D L) as (v & E & _). rewrite E. exists v. auto.
Qed.

(** ** Residual *)
Definition rhs_all3 : list (Z * T) :=
  flat_map (fun e => let '(ex, ey, ez) := e in
    rhs_adds 3 (sn3 (v_nx V) (v_ny V) ex ey ez) (be3 V uf of e)) (els3 V).
Definition rhs_all2 : list (Z * T) :=
  flat_map (fun e => let '(ex, ey) := e in
    rhs_adds 2 (sn2 (v_nx V) ex ey) (be2 V uf e)) (els2 V).

Lemma in_rhs_all3 j x : In (j, x) rhs_all3 <-> exists e i, In e (els3 V) /\ 0 <= i < 24 /\
  j = (let '(ex, ey, ez) := e in corner3 (v_nx V) (v_ny V) ex ey ez (i / 3) * 3 + i mod 3) /\
  x = lget (be3 V uf of e) i.
Proof.
  unfold rhs_all3. rewrite in_flat_map. split.
  - intros ([[ex ey] ez] & He & H). unfold rhs_adds in H. apply in_map_iff in H.
    destruct H as (i & [= <- <-] & Hi). apply in_zrange in Hi. change (Z.of_nat (length _) * 3) with 24 in Hi.
    exists (ex, ey, ez), i. split; [exact He|]. split; [exact Hi|].
    rewrite sn3_corner by (Z.div_mod_to_equations; lia). auto.
  - intros ([[ex ey] ez] & i & He & Hi & -> & ->). exists (ex, ey, ez). split; [exact He|].
    apply in_map_iff. exists i. rewrite sn3_corner by (Z.div_mod_to_equations; lia).
    split; [reflexivity|]. now apply in_zrange.
Qed.

Lemma in_rhs_all2 j x : In (j, x) rhs_all2 <-> exists e i, In e (els2 V) /\ 0 <= i < 8 /\
  j = (let '(ex, ey) := e in corner2 (v_nx V) (v_ny V) ex ey (i / 2) * 2 + i mod 2) /\
  x = lget (be2 V uf e) i.
Proof.
  unfold rhs_all2. rewrite in_flat_map. split.
  - intros ([ex ey] & He & H). unfold rhs_adds in H. apply in_map_iff in H.
    destruct H as (i & [= <- <-] & Hi). apply in_zrange in Hi. change (Z.of_nat (length _) * 2) with 8 in Hi.
    exists (ex, ey), i. split; [exact He|]. split; [exact Hi|].
    rewrite (sn2_corner _ (v_ny V)) by (Z.div_mod_to_equations; lia). auto.
  - intros ([ex ey] & i & He & Hi & -> & ->). exists (ex, ey). split; [exact He|].
    apply in_map_iff. exists i. rewrite (sn2_corner _ (v_ny V)) by (Z.div_mod_to_equations; lia).
    split; [reflexivity|]. now apply in_zrange.
Qed.

Lemma fold_adds_flag {A} (w : A -> list (Z * T)) (f : A -> bool) l b nl :
  foldM (fun st e => b <- run_adds (w e) (fst st) ;; Ok (b, if f e then true else snd st)) l (b, nl)
  = (b <- run_adds (flat_map w l) b ;; Ok (b, nl || existsb f l)%bool).
Proof.
  revert b nl. induction l as [|e l IH]; intros b nl; cbn [foldM flat_map existsb].
  - simpl. now rewrite orb_false_r.
  - rewrite run_adds_app. cbn [fst snd]. destruct (run_adds (w e) b); cbn [bind]; [|reflexivity].
    rewrite IH. destruct (f e), nl; cbn; try reflexivity; now rewrite ?orb_true_r.
Qed.

(** boundary test by node number *)
Definition bndb (nz n : Z) : bool :=
  let nx := v_nx V in let ny := v_ny V in
  let i := n mod nx in let j := (n / nx) mod ny in let k := n / nx / ny in
  (i =? 0) || (i =? nx - 1) || (j =? 0) || (j =? ny - 1)
  || ((v_dim V =? 3) && ((k =? 0) || (k =? nz - 1))).

Lemma node_coords nx ny i j k : 0 <= i < nx -> 0 <= j < ny ->
  node nx ny i j k mod nx = i /\ (node nx ny i j k / nx) mod ny = j /\ node nx ny i j k / nx / ny = k.
Proof.
  clear uf of.
  intros Hi Hj. unfold node.
  replace (i + nx * (j + ny * k)) with (i + (j + ny * k) * nx) by ring.
  rewrite Z.mod_add, Z.div_add by lia. rewrite (Z.div_small i), (Z.mod_small i) by lia.
  replace (0 + (j + ny * k)) with (j + k * ny) by ring.
  rewrite Z.mod_add, Z.div_add by lia. rewrite (Z.div_small j), (Z.mod_small j) by lia. lia.
Qed.

Lemma bndb3_spec i j k : v_dim V = 3 -> 0 <= i < v_nx V -> 0 <= j < v_ny V -> 0 <= k < v_nz V ->
  bndb (v_nz V) (node (v_nx V) (v_ny V) i j k) = true <-> bnd3 (v_nx V) (v_ny V) (v_nz V) i j k.
Proof.
  clear uf of.
  intros D Hi Hj Hk. unfold bndb. rewrite D. destruct (node_coords (v_nx V) (v_ny V) i j k Hi Hj) as (-> & -> & ->).
  unfold bnd3, on_bnd. simpl. lia.
Qed.
Lemma bndb2_spec i j : v_dim V = 2 -> 0 <= i < v_nx V -> 0 <= j < v_ny V ->
  bndb (v_nz V) (node (v_nx V) (v_ny V) i j 0) = true <-> bnd2 (v_nx V) (v_ny V) i j.
Proof.
  clear uf of.
  intros D Hi Hj. unfold bndb. rewrite D. destruct (node_coords (v_nx V) (v_ny V) i j 0 Hi Hj) as (-> & -> & ->).
  unfold bnd2, on_bnd. simpl. lia.
Qed.

(** the residual, by dof *)
Definition resid (d : Z) (W : list (Z * T)) (a : Z) : T :=
  oopp (if bndb (v_nz V) (a / d) then dec 0 1 else fold_left oadd (deltas W a) (dec 0 1)).
Definition norm2 (n : Z) (r : Z -> T) : T := osqrt (sumf (zrange 0 n) (fun i => omul (r i) (r i))).

Lemma zero_all n b : 0 <= n -> alen b = n ->
  exists b', run_stores (map (fun i => (i, dec 0 1)) (zrange 0 n)) b = Ok b' /\ rep b' n (fun _ => dec 0 1).
Proof.
  intros Hn L. destruct (run_stores_ok (map (fun i => (i, dec 0 1)) (zrange 0 n)) b) as (b' & E & L' & G).
  { intros j v H. apply in_map_iff in H. destruct H as (i & [= <- _] & Hi). apply in_zrange in Hi. lia. }
  exists b'. split; [exact E|]. split; [congruence|]. intros i Hi. rewrite G.
  rewrite (last_write_unique _ i (dec 0 1)); [reflexivity| |].
  - apply in_map_iff. exists i. split; [reflexivity|now apply in_zrange].
  - intros v H. apply in_map_iff in H. destruct H as (k & [= _ <-] & _). reflexivity.
Qed.

(** shared tail of assembly_rhs *)
Lemma rhs_tail n b r :
  rep b n r ->
  exists b', upd_for n (fun b i => x <- rd b i ;; Ok (oopp x)) b = Ok b' /\ rep b' n (fun i => oopp (r i)) /\
    (n2 <- dotM n b' b' ;; Ok (osqrt n2)) = Ok (norm2 n (fun i => oopp (r i))).
Proof.
  intros (L & G). destruct (upd_for_rep n (fun b i => x <- rd b i ;; Ok (oopp x)) b (fun i => oopp (r i)) L)
    as (b' & E & R).
  { intros a' i Hi La Ga. rewrite (rd_aget a' i (r i)); [reflexivity|]. rewrite Ga. now apply G. }
  exists b'. split; [exact E|]. split; [exact R|]. unfold dotM.
  rewrite (sumM_ok _ _ (fun i => omul (oopp (r i)) (oopp (r i)))); [reflexivity|].
  intros i Hi. apply in_zrange in Hi. now rewrite (rep_rd b' n _ i R Hi).
Qed.

Lemma dof3_cases a N : 0 <= a < N * 3 -> 0 <= a / 3 < N /\ 0 <= a mod 3 < 3 /\ a = (a / 3) * 3 + a mod 3.
Proof.
  clear uf of. intros. Z.div_mod_to_equations. lia. Qed.
Lemma dof2_cases a N : 0 <= a < N * 2 -> 0 <= a / 2 < N /\ 0 <= a mod 2 < 2 /\ a = (a / 2) * 2 + a mod 2.
Proof.
  clear uf of. intros. Z.div_mod_to_equations. lia. Qed.

Theorem rhs3_ok u vold vnew b : v_dim V = 3 -> rep u (v_nx V * v_ny V * v_nz V * 3) uf ->
  old_ok V of vold -> alen vnew = ncells V * 56 -> alen b = v_nx V * v_ny V * v_nz V * 3 ->
  let N := v_nx V * v_ny V * v_nz V * 3 in
  exists b' vnew', assembly_rhs V u vold vnew b =
      Ok (b', existsb (fun e => nl3 V of e 7 (strain3 V uf e 7)) (els3 V), vnew', norm2 N (resid 3 rhs_all3)) /\
    rep b' N (resid 3 rhs_all3) /\ run_stores visit vnew = Ok vnew'.
Proof.
  intros D U O L Lb N.
  assert (Hz : 2 <= v_nz V) by (destruct (sa_dim V S); lia).
  pose proof (sa_nx V S) as Hx. pose proof (sa_ny V S) as Hy.
  unfold assembly_rhs, ndofs, nn. rewrite D. fold N. cbn [Z.eqb Pos.eqb].
  destruct (zero_all N b) as (b0 & E0 & R0); [unfold N; nia|assumption|]. rewrite E0. cbn [bind].
  destruct (run_adds_ok rhs_all3 b0 N (fun _ => dec 0 1) R0) as (b1 & E1 & R1).
  { intros j v H. apply in_rhs_all3 in H. destruct H as ([[ex ey] ez] & i & He & Hi & -> & _).
    apply in_els3 in He. destruct He as (H1 & H2 & H3).
    pose proof (corner3_range (v_nx V) (v_ny V) (v_nz V) ex ey ez (i / 3) H1 H2 H3).
    assert (0 <= i / 3 < 8) by (Z.div_mod_to_equations; lia). pose proof (Z.mod_pos_bound i 3). unfold N. lia. }
  destruct (visit_ok vnew D L) as (v1 & Ev & _).
  rewrite (foldM_pair _ (fun v e => run_stores (cell_st V uf of e) v)
    (fun st e => b <- run_adds (let '(ex, ey, ez) := e in
       rhs_adds 3 (sn3 (v_nx V) (v_ny V) ex ey ez) (be3 V uf of e)) (fst st) ;;
       Ok (b, if nl3 V of e 7 (strain3 V uf e 7) then true else snd st)) (els3 V) (b0, false) vnew
    (b1, existsb (fun e => nl3 V of e 7 (strain3 V uf e 7)) (els3 V)) v1).
  2:{ intros [[ex ey] ez] [b2 nl] v He. cbn [fst snd]. rewrite (elem_rhs3_ok V uf of) by assumption.
      rewrite bind_assoc. destruct (run_stores _ v); cbn [bind fst snd]; [|reflexivity].
      rewrite bind_assoc. reflexivity. }
  2:{ rewrite foldM_stores. exact Ev. }
  2:{ rewrite fold_adds_flag. fold rhs_all3. rewrite E1. reflexivity. }
  cbn [bind fst snd].
  destruct (zero_bnd3_ok V b1 Hx Hy Hz) as (b2 & E2 & L2 & G2); [now destruct R1|].
  rewrite E2. cbn [bind fst snd].
  assert (R2 : rep b2 N (fun a => if bndb (v_nz V) (a / 3) then dec 0 1
      else fold_left oadd (deltas rhs_all3 a) (dec 0 1))).
  { split; [exact L2|]. intros a Ha. destruct (dof3_cases a _ Ha) as (Hn & Hc & Ea).
    destruct (node_surj (v_nx V) (v_ny V) (v_nz V) (a / 3)) as (i & j & k & Hi & Hj & Hk & En); try lia.
    destruct (G2 i j k (a mod 3) Hi Hj Hk Hc) as (Gb & Gi). rewrite En, <- Ea in *.
    pose proof (bndb3_spec i j k D Hi Hj Hk) as Bs. rewrite En in Bs.
    destruct (bndb (v_nz V) (a / 3)) eqn:Eb.
    - apply Gb. now apply Bs.
    - rewrite Gi by (rewrite <- Bs; discriminate). destruct R1 as (_ & R1). now apply R1. }
  destruct (rhs_tail N b2 _ R2) as (b3 & E3 & R3 & En). rewrite E3. cbn [bind].
  exists b3, v1. split; [|split; [exact R3|exact Ev]].
  destruct (dotM N b3 b3); [|discriminate]. cbn [bind] in *. injection En as ->. reflexivity.
Qed.

Theorem rhs2_ok u vold vnew b : v_dim V = 2 -> rep u (v_nx V * v_ny V * 2) uf ->
  alen b = v_nx V * v_ny V * 2 ->
  let N := v_nx V * v_ny V * 2 in
  exists b', assembly_rhs V u vold vnew b = Ok (b', false, vnew, norm2 N (resid 2 rhs_all2)) /\
    rep b' N (resid 2 rhs_all2).
Proof.
  intros D U Lb N.
  assert (Hz : v_nz V = 1) by (destruct (sa_dim V S); lia).
  pose proof (sa_nx V S) as Hx. pose proof (sa_ny V S) as Hy.
  unfold assembly_rhs, ndofs, nn. rewrite D. replace (v_nx V * v_ny V * v_nz V * 2) with N by (unfold N; rewrite Hz; ring).
  cbn [Z.eqb Pos.eqb].
  destruct (zero_all N b) as (b0 & E0 & R0); [unfold N; nia|assumption|]. rewrite E0. cbn [bind].
  destruct (run_adds_ok rhs_all2 b0 N (fun _ => dec 0 1) R0) as (b1 & E1 & R1).
  { intros j v H. apply in_rhs_all2 in H. destruct H as ([ex ey] & i & He & Hi & -> & _).
    apply in_els2 in He. destruct He as (H1 & H2).
    pose proof (corner2_range (v_nx V) (v_ny V) ex ey (i / 2) H1 H2).
    assert (0 <= i / 2 < 4) by (Z.div_mod_to_equations; lia). pose proof (Z.mod_pos_bound i 2). unfold N. lia. }
  rewrite (foldM_ext _ (fun st e => b <- run_adds (let '(ex, ey) := e in
       rhs_adds 2 (sn2 (v_nx V) ex ey) (be2 V uf e)) (fst st) ;;
       Ok (b, if (fun _ => false) e then true else snd st))).
  2:{ intros [b2 nl] [ex ey] He. cbn [fst snd]. rewrite (elem_rhs2_ok V uf) by assumption. reflexivity. }
  rewrite (fold_adds_flag (fun e => let '(ex, ey) := e in rhs_adds 2 (sn2 (v_nx V) ex ey) (be2 V uf e)) (fun _ => false)).
  fold rhs_all2. rewrite E1. cbn [bind fst snd].
  replace (existsb (fun _ => false) (els2 V)) with false by (clear; induction (els2 V); auto).
  destruct (zero_bnd2_ok V b1 Hx Hy) as (b2 & E2 & L2 & G2); [now destruct R1|].
  rewrite E2. cbn [bind fst snd orb].
  assert (R2 : rep b2 N (fun a => if bndb (v_nz V) (a / 2) then dec 0 1
      else fold_left oadd (deltas rhs_all2 a) (dec 0 1))).
  { split; [exact L2|]. intros a Ha. destruct (dof2_cases a _ Ha) as (Hn & Hc & Ea).
    destruct (node_surj (v_nx V) (v_ny V) 1 (a / 2)) as (i & j & k & Hi & Hj & Hk & En); try lia.
    assert (k = 0) by lia. subst k.
    destruct (G2 i j (a mod 2) Hi Hj Hc) as (Gb & Gi). rewrite En, <- Ea in *.
    pose proof (bndb2_spec i j D Hi Hj) as Bs. rewrite En in Bs.
    destruct (bndb (v_nz V) (a / 2)) eqn:Eb.
    - apply Gb. now apply Bs.
    - rewrite Gi by (rewrite <- Bs; discriminate). destruct R1 as (_ & R1). now apply R1. }
  destruct (rhs_tail N b2 _ R2) as (b3 & E3 & R3 & En). rewrite E3. cbn [bind].
  exists b3. split; [|exact R3].
  destruct (dotM N b3 b3); [|discriminate]. cbn [bind] in *. injection En as ->. reflexivity.
Qed.
End Run.
