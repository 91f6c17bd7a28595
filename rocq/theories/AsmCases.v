(** Concrete bodies on which the hypotheses of the assembly theorems hold: a composite of
    two linear materials in each dimension, and a flowing plastic Gauss point. *)
From Coq Require Import Reals Lra ZifyBool.
From Verif Require Import Base Scalar EllSpec EllModel EllFinal EllProps Grid CgProps FemGen FemAve AsmRun FemMat FemDef FemRhs AssemblyModel AsmPure AsmBnd FemPd FemEquil AsmEx PlastRef AsmSpec AsmProps AsmEquil AsmPoint.
Open Scope Z_scope.
Open Scope R_scope.

Definition soft : material R := elas 1 (1 / 4) 0 0 false.
Definition stiff : material R := elas 10 (3 / 10) 0 0 false.
Definition blend3 : env R := box 3 4 5 3 1 2 3 soft stiff.
Definition blend2 : env R := box 2 4 5 1 1 2 1 soft stiff.
Lemma soft_adm : admissible soft. Proof. apply elas_adm; lra. Qed.
Lemma stiff_adm : admissible stiff. Proof. apply elas_adm; lra. Qed.
Lemma gb3 : goodbox 3 4 5 3. Proof. unfold goodbox; lia. Qed.
Lemma gb2 : goodbox 2 4 5 1. Proof. unfold goodbox; lia. Qed.
Lemma blend3_body : body3 blend3.
Proof. split; [|split; [|reflexivity]]; [exact (box_sane 3 4 5 3 1 2 3 soft stiff gb3 false false eq_refl eq_refl)|apply (box_geom 3 4 5 3 1 2 3 soft stiff gb3); lra]. Qed.
Lemma blend2_body : body2 blend2.
Proof. split; [|split; [|reflexivity]]; [exact (box_sane 2 4 5 1 1 2 1 soft stiff gb2 false false eq_refl eq_refl)|apply (box_geom 2 4 5 1 1 2 1 soft stiff gb2); lra]. Qed.
Lemma blend3_linear : linear blend3.
Proof. intros c Hc. exact (box_plastic 3 4 5 3 1 2 3 soft stiff c false eq_refl eq_refl Hc). Qed.
Lemma blend3_adm : adm blend3. Proof. exact (box_adm 3 4 5 3 1 2 3 soft stiff soft_adm stiff_adm). Qed.
Lemma blend2_adm : adm blend2. Proof. exact (box_adm 2 4 5 1 1 2 1 soft stiff soft_adm stiff_adm). Qed.
Lemma soft_stiff : soft <> stiff. Proof. intros E. apply (f_equal m_E) in E. cbn in E. lra. Qed.

Lemma composite3 : body3 blend3 /\ linear blend3 /\ adm blend3 /\ v_lz blend3 <> 1 /\
  mat_at blend3 0 <> mat_at blend3 1 /\
  exists e u u' vold vnew (b : arr R) (A : ell R), full u (ndofs blend3) /\ set_displ blend3 e u = Ok u' /\ lget e 3 <> 0 /\
    vars_ok blend3 vold vnew /\ alen b = ndofs blend3 /\ matrix3 3 (v_nx blend3) (v_ny blend3) (v_nz blend3) A.
Proof.
  split; [exact blend3_body|]. split; [exact blend3_linear|]. split; [exact blend3_adm|]. split; [cbn; lra|].
  split.
  { assert (N : ncells blend3 = 24%Z) by reflexivity.
    unfold blend3 in *. rewrite !(box_mat 3 4 5 3 1 2 3 soft stiff) by (rewrite N; lia). exact soft_stiff. }
  pose proof (fun_arr_rep (ndofs blend3) (fun i => IZR i)) as U. apply rep_full in U.
  destruct (displ3_spec blend3 [1; 2; 3; 4; 5; 6] _ blend3_body (proj1 U)) as (u' & E & _).
  destruct (matrix3_inhabited (T := R) 3 (v_nx blend3) (v_ny blend3) (v_nz blend3)) as (A & M); try (cbn; lia).
  exists [1; 2; 3; 4; 5; 6], (fun_arr (ndofs blend3) (fun i => IZR i)), u', (fun_arr (ncells blend3 * 56) (fun _ => 0)), (fun_arr (ncells blend3 * 56) (fun _ => 0)), (fun_arr (ndofs blend3) (fun _ => 0)), A.
  split; [exact U|]. split; [exact E|]. split; [change (4 <> 0); lra|]. split; [|split; [apply fun_arr_rep|exact M]].
  split; [|apply fun_arr_rep]. intros c g i Hc _ _ P. rewrite (blend3_linear c Hc) in P. discriminate.
Qed.
Lemma composite2 : body2 blend2 /\ adm blend2 /\ mat_at blend2 0 <> mat_at blend2 1 /\
  exists e u u' (b : arr R) (A : ell R), full u (ndofs blend2) /\ set_displ blend2 e u = Ok u' /\ lget e 2 <> 0 /\
    alen b = ndofs blend2 /\ matrix2 2 (v_nx blend2) (v_ny blend2) A.
Proof.
  split; [exact blend2_body|]. split; [exact blend2_adm|]. split.
  { assert (N : ncells blend2 = 12%Z) by reflexivity.
    unfold blend2 in *. rewrite !(box_mat 2 4 5 1 1 2 1 soft stiff) by (rewrite N; lia). exact soft_stiff. }
  pose proof (fun_arr_rep (ndofs blend2) (fun i => IZR i)) as U. apply rep_full in U.
  destruct (displ2_spec blend2 [1; 2; 3] _ blend2_body (proj1 U)) as (u' & E & _).
  destruct (matrix2_inhabited (T := R) 2 (v_nx blend2) (v_ny blend2)) as (A & M); try (cbn; lia).
  exists [1; 2; 3], (fun_arr (ndofs blend2) (fun i => IZR i)), u', (fun_arr (ndofs blend2) (fun _ => 0)), A.
  split; [exact U|]. split; [exact E|]. split; [change (3 <> 0); lra|]. split; [apply fun_arr_rep|exact M].
Qed.
Lemma affine_field3 V e : body3 V -> affine_all3 V e (afield3 V e).
Proof.
  intros (S & G & D) i j k (Hi & Hj & Hk). cbv zeta. rewrite !dof3_node.
  pose proof (afield3_node V e i j k 0 Hi Hj ltac:(lia)) as X0. pose proof (afield3_node V e i j k 1 Hi Hj ltac:(lia)) as X1.
  pose proof (afield3_node V e i j k 2 Hi Hj ltac:(lia)) as X2. unfold cmp3 in *. rewrite X0, X1, X2. now repeat split.
Qed.
Lemma affine_field2 V e : body2 V -> affine_all2 V e (afield2 V e).
Proof.
  intros (S & G & D) i j (Hi & Hj). cbv zeta. rewrite !dof2_node.
  pose proof (afield2_node V e i j 0 Hi Hj ltac:(lia)) as X0. pose proof (afield2_node V e i j 1 Hi Hj ltac:(lia)) as X1.
  unfold cmp2 in *. rewrite X0, X1. now split.
Qed.
(** equilibrated states under a shear, on the composites *)
Lemma equil3 : exists e u vold b' s, state3 blend3 e u vold b' 0 s /\ lget e 3 <> 0 /\ exists a, affine_all3 blend3 e a.
Proof.
  destruct (equilibrium3 blend3 [1; 2; 3; 4; 5; 6] blend3_body blend3_linear blend3_adm) as (H & _).
  destruct composite3 as (_ & _ & _ & _ & _ & _ & _ & _ & vold & vnew & _ & _ & _ & _ & _ & W & _).
  destruct (H vold vnew W) as (u & b' & s & St). exists [1; 2; 3; 4; 5; 6], u, vold, b', s. split; [exact St|]. split; [change (4 <> 0); lra|]. eexists. exact (affine_field3 _ _ blend3_body).
Qed.
Lemma equil2 : exists e u b' s, state2 blend2 e u b' 0 s /\ lget e 2 <> 0 /\ exists a, affine_all2 blend2 e a.
Proof.
  destruct (equilibrium2 blend2 [1; 2; 3] blend2_body blend2_adm) as ((u & b' & s & St) & _).
  exists [1; 2; 3], u, b', s. split; [exact St|]. split; [change (3 <> 0); lra|]. eexists. exact (affine_field2 _ _ blend2_body).
Qed.
(** a plastic Gauss point that flows, with hardening and yield stress *)
Lemma flowing : exists V vold vnew m eps s ep al ep' al' vn, step_at V vold vnew 0 0 0 0 m eps true s ep al ep' al' vn /\
  admissible m /\ 0 < m_Ka m /\ 0 <= m_Sy m + m_Ka m * al /\ trace6 ep = 0 /\ 0 < al'.
Proof.
  destruct (realize (mat1 1 0) (shear 2) zero56 zero56 eq_refl zero56_full zero56_full) as (vn & _ & St & _).
  rewrite zero_step in St. destruct (shear_flow 1) as (E & _). rewrite E in St.
  assert (A : admissible (mat1 1 0)) by (apply elas_adm; lra).
  assert (K : 0 <= m_Sy (mat1 1 0) + m_Ka (mat1 1 0) * val zero56 6) by (rewrite zero56_val by lia; cbn; lra).
  destruct (plastic_point _ _ _ _ _ _ _ _ _ _ _ _ _ _ _ _ St (adm_mu _ A)) as (_ & H & H2 & _); [cbn; lra|exact K|].
  do 11 eexists. split; [exact St|]. split; [exact A|]. split; [cbn; lra|]. split; [exact K|]. split.
  - unfold trace6. rewrite !zero56_val by lia. ring.
  - rewrite zero56_val in H, H2 by lia. destruct H as [H|H]; [exact H|]. symmetry in H. apply H2 in H. discriminate.
Qed.
