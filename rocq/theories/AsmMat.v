(** The stiffness assembly: element matrices and assembly_mat, every scalar type. *)
From Coq Require Import ZifyBool.
From Verif Require Import Base Scalar EllSpec EllInit Grid EllModel EllAsm EllOp EllBc EllBc2 EllFinal AssemblyModel AsmPure AsmRun.
Open Scope Z_scope.

Section Mat.
Context {T : Type} `{OT : Ops T}.
Variable V : env T.
Variable uf : Z -> T.
Variable of : Z -> T.
Hypothesis S : sane V.

Definition emat2 (e : Z * Z) : list T :=
  let m := mat_at V (ix2 V e) in
  fold_left (fun Ae g => add_mat 3 8 (B2 V g) (ctan2 (m_E m) (m_nu m)) (wg2 V) Ae) (zrange 0 4) (zeros 64).

Lemma elem_mat2_ok ex ey : v_dim V = 2 -> In (ex, ey) (els2 V) ->
  get_elem_mat2D V ex ey = Ok (emat2 (ex, ey)).
Proof.
  intros D H. unfold get_elem_mat2D. rewrite get_material_ok; [reflexivity|exact S|].
  now apply (ix2_range V (ex, ey)).
Qed.

(** ** The perturbed tangent *)
Definition pert (e : Z * Z * Z) (g i : Z) : list T :=
  ltab 6 (fun j => if j =? i then oadd (lget (strain3 V uf e g) j) deps_pert else lget (strain3 V uf e g) j).
Definition pcol (e : Z * Z * Z) (g i : Z) : list T :=
  ltab 6 (fun j => odiv (osub (lget (sig3 V of e g (pert e g i)) j) (lget (sig3 V of e g (strain3 V uf e g)) j)) deps_pert).
Definition ptan (e : Z * Z * Z) (g j i : Z) : T := lget (nth (Z.to_nat i) (map (pcol e g) (zrange 0 6)) []) j.
Definition pst (e : Z * Z * Z) (g : Z) : list (Z * T) :=
  st3 V of e g (strain3 V uf e g) ++ flat_map (fun i => st3 V of e g (pert e g i)) (zrange 0 6).

Lemma fold_snoc {A B} (c : A -> B) l acc : fold_left (fun a i => a ++ [c i]) l acc = acc ++ map c l.
Proof.
  revert acc. induction l as [|x l IH]; intros acc; simpl; [now rewrite app_nil_r|].
  rewrite IH, <- app_assoc. reflexivity.
Qed.

Lemma plast_pert_ok u vold vnew ex ey ez g : v_dim V = 3 -> rep u (v_nx V * v_ny V * v_nz V * 3) uf ->
  old_ok V of vold -> In (ex, ey, ez) (els3 V) -> 0 <= g < 8 ->
  ctan_plast_pert V u vold vnew ex ey ez g =
  (vn <- run_stores (pst (ex, ey, ez) g) vnew ;; Ok (ptan (ex, ey, ez) g, vn)).
Proof.
  intros D U O H Hg. unfold ctan_plast_pert. rewrite (strain3_ok V uf) by assumption. cbn [bind].
  rewrite (stress3_ok V uf of) by assumption. unfold pst. rewrite run_stores_app, !bind_assoc.
  destruct (run_stores _ vnew) as [v|]; cbn [bind fst snd]; [|reflexivity].
  rewrite (fold_stores _ (fun a i => a ++ [pcol (ex, ey, ez) g i])
     (fun i => st3 V of (ex, ey, ez) g (pert (ex, ey, ez) g i))).
  - rewrite fold_snoc, bind_assoc. reflexivity.
  - intros a v' i Hi. cbn [fst snd]. rewrite (stress3_ok V uf of) by assumption. rewrite bind_assoc. reflexivity.
Qed.

Definition tan3 (e : Z * Z * Z) (g : Z) : Z -> Z -> T :=
  if plastic_at V (ix3 V e) then ptan e g
  else ctan3 (m_lambda (mat_at V (ix3 V e))) (m_mu (mat_at V (ix3 V e))).
Definition mst (e : Z * Z * Z) : list (Z * T) :=
  if plastic_at V (ix3 V e) then flat_map (pst e) (zrange 0 8) else [].
Definition emat3 (e : Z * Z * Z) : list T :=
  fold_left (fun Ae g => add_mat 6 24 (B3 V g) (tan3 e g) (wg3 V) Ae) (zrange 0 8) (zeros 576).

Lemma elem_mat3_ok u vold vnew ex ey ez : v_dim V = 3 -> rep u (v_nx V * v_ny V * v_nz V * 3) uf ->
  old_ok V of vold -> In (ex, ey, ez) (els3 V) ->
  get_elem_mat3D V u vold vnew ex ey ez =
  (vn <- run_stores (mst (ex, ey, ez)) vnew ;; Ok (emat3 (ex, ey, ez), vn)).
Proof.
  intros D U O H. unfold get_elem_mat3D. change (glo_elem3D (v_nx V) (v_ny V) ex ey ez) with (ix3 V (ex, ey, ez)).
  rewrite get_material_ok; [|exact S|now apply (ix3_range V _ D)]. cbn [bind fst snd].
  unfold emat3, tan3, mst. destruct (plastic_at V (ix3 V (ex, ey, ez))).
  - rewrite (fold_stores _ (fun A g => add_mat 6 24 (B3 V g) (ptan (ex, ey, ez) g) (wg3 V) A) (pst (ex, ey, ez))).
    + reflexivity.
    + intros A v g Hg. apply in_zrange in Hg. cbn [fst snd]. rewrite (plast_pert_ok u vold) by assumption.
      rewrite bind_assoc. reflexivity.
  - rewrite (fold_stores _ (fun A g => add_mat 6 24 (B3 V g)
      (ctan3 (m_lambda (mat_at V (ix3 V (ex, ey, ez)))) (m_mu (mat_at V (ix3 V (ex, ey, ez))))) (wg3 V) A) (fun _ => [])).
    + reflexivity.
    + intros A v g Hg. reflexivity.
Qed.

Lemma mst_range e j x : v_dim V = 3 -> In e (els3 V) -> In (j, x) (mst e) -> 0 <= j < ncells V * 56.
Proof.
  intros D He H. unfold mst in H. destruct plastic_at; [|destruct H]. apply in_flat_map in H.
  destruct H as (g & Hg & H). apply in_zrange in Hg. unfold pst in H. apply in_app_or in H.
  destruct H as [H|H]; [now apply (st3_range V uf of e g _ j x D He Hg H)|].
  apply in_flat_map in H. destruct H as (i & _ & H). now apply (st3_range V uf of e g _ j x D He Hg H).
Qed.

(** ** assembly_mat *)
Theorem mat3_ok u vold vnew (A : ell T) : v_dim V = 3 -> rep u (v_nx V * v_ny V * v_nz V * 3) uf ->
  old_ok V of vold -> alen vnew = ncells V * 56 -> struct3 A 3 (v_nx V) (v_ny V) (v_nz V) ->
  exists A1 A2 vnew', assembly_mat V u vold vnew A = Ok (A2, vnew') /\
    assemble3 3 (v_nx V) (v_ny V) (v_nz V) (fun e => lget (emat3 e)) (els3 V) A = Ok A1 /\
    ell_set_bc_3D A1 3 (v_nx V) (v_ny V) (v_nz V) = Ok A2 /\
    run_stores (flat_map mst (els3 V)) vnew = Ok vnew' /\ alen vnew' = ncells V * 56.
Proof.
  intros D U O L M.
  assert (Hz : 2 <= v_nz V) by (destruct (sa_dim V S); lia).
  pose proof (sa_nx V S) as Hx. pose proof (sa_ny V S) as Hy.
  destruct (assemble3_ok 3 (v_nx V) (v_ny V) (v_nz V) (fun e => lget (emat3 e)) (els3 V) A) as (v & E & M1 & _);
    [lia|exact M| |].
  { intros [[ex ey] ez] He. now apply in_els3 in He. }
  destruct (set_bc_3D_ok (set_vals A v) 3 (v_nx V) (v_ny V) (v_nz V)) as (w & B & _); try assumption; [lia|].
  destruct (run_stores_ok (flat_map mst (els3 V)) vnew) as (vn & Ev & Lv & _).
  { intros j x H. apply in_flat_map in H. destruct H as (e & He & H). rewrite L. now apply (mst_range e j x D He H). }
  exists (set_vals A v), (set_vals (set_vals A v) w), vn.
  split; [|split; [exact E|split; [exact B|split; [exact Ev|congruence]]]].
  unfold assembly_mat. rewrite D. cbn [Z.eqb Pos.eqb]. unfold assemble3 in E.
  destruct (ell_set_zero_mat A) as [A0|]; [|discriminate]. cbn [bind] in *.
  rewrite (foldM_pair _ (fun v e => run_stores (mst e) v)
    (fun A e => let '(ex, ey, ez) := e in ell_add_struct3D A ex ey ez (lget (emat3 e)) 3 (v_nx V) (v_ny V) (v_nz V))
    (els3 V) A0 vnew (set_vals A v) vn).
  - cbn [bind fst snd]. rewrite B. reflexivity.
  - intros [[ex ey] ez] A' v' He. cbn [fst snd]. rewrite (elem_mat3_ok u vold) by assumption.
    rewrite bind_assoc. reflexivity.
  - rewrite foldM_stores. exact Ev.
  - rewrite <- E. apply foldM_ext. intros s [[ex ey] ez] _. reflexivity.
Qed.

Theorem mat2_ok u vold vnew (A : ell T) : v_dim V = 2 -> struct2 A 2 (v_nx V) (v_ny V) ->
  exists A1 A2, assembly_mat V u vold vnew A = Ok (A2, vnew) /\
    assemble2 2 (v_nx V) (v_ny V) (fun e => lget (emat2 e)) (els2 V) A = Ok A1 /\
    ell_set_bc_2D A1 2 (v_nx V) (v_ny V) = Ok A2.
Proof.
  intros D M. pose proof (sa_nx V S) as Hx. pose proof (sa_ny V S) as Hy.
  destruct (assemble2_ok 2 (v_nx V) (v_ny V) (fun e => lget (emat2 e)) (els2 V) A) as (v & E & M1 & _);
    [lia|exact M| |].
  { intros [ex ey] He. now apply in_els2 in He. }
  destruct (set_bc_2D_ok (set_vals A v) 2 (v_nx V) (v_ny V)) as (w & B & _); try assumption; [lia|].
  exists (set_vals A v), (set_vals (set_vals A v) w).
  split; [|split; [exact E|exact B]].
  unfold assembly_mat. rewrite D. cbn [Z.eqb Pos.eqb]. unfold assemble2 in E.
  destruct (ell_set_zero_mat A) as [A0|]; [|discriminate]. cbn [bind] in *.
  rewrite (foldM_ext _ (fun A e => let '(ex, ey) := e in ell_add_struct2D A ex ey (lget (emat2 e)) 2 (v_nx V) (v_ny V))).
  - rewrite E. cbn [bind]. rewrite B. reflexivity.
  - intros s [ex ey] He. rewrite elem_mat2_ok by assumption. reflexivity.
Qed.
End Mat.
