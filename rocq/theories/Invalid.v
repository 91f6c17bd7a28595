(** What construction demands of its arguments: invalid ones leave no defined outcome. *)
From Coq Require Import ZifyBool.
From Verif Require Import Base Scalar EllSpec EllInit EllModel EllAsm EllFinal EllProps Grid AssemblyModel AsmPure AsmRun MicroModel OutputModel NewtonBase ApiBase ApiRun ApiHist Build Swap ApiSpec ApiCases.

Lemma foldM_each {St A} (f : St -> A -> res St) l s s' : foldM f l s = Ok s' -> forall x, In x l -> exists s1 s2, f s1 x = Ok s2.
Proof.
  revert s. induction l as [|y l IH]; intros s H x Hx; [destruct Hx|]. cbn [foldM] in H. apply bind_ok in H. destruct H as (s1 & E & H).
  destruct Hx as [->|Hx]; [eauto|exact (IH s1 H x Hx)].
Qed.
Lemma nth_error_arg {A} (l : list A) i x : arg l i = Ok x -> (Z.to_nat i < length l)%nat.
Proof. unfold arg. destruct (i <? 0); [discriminate|]. destruct (nth_error l (Z.to_nat i)) eqn:E; [|discriminate]. intros _. apply nth_error_Some. congruence. Qed.
Lemma mapM_each {A B} (f : A -> res B) l r : mapM f l = Ok r -> forall x, In x l -> exists y, f x = Ok y.
Proof.
  revert r. induction l as [|a l IH]; intros r H x Hx; [destruct Hx|]. cbn [mapM] in H. apply bind_ok in H. destruct H as (y & E & H).
  apply bind_ok in H. destruct H as (ys & E2 & _). destruct Hx as [->|Hx]; [eauto|exact (IH ys E2 x Hx)].
Qed.

Section Invalid.
Context {T : Type} `{OT : Ops T}.
Implicit Types (V : env T) (w : work T) (o : obj T).

(** a completed Newton call has looked up the material of every cell *)
Lemma rhs_cells V u vo vn b r : v_dim V = 2 \/ v_dim V = 3 -> assembly_rhs V u vo vn b = Ok r ->
  (v_dim V = 2 -> forall ex ey, In (ex, ey) (els2 V) -> exists m, get_material V (ix2 V (ex, ey)) = Ok m) /\
  (v_dim V = 3 -> forall ex ey ez, In (ex, ey, ez) (els3 V) -> exists m, get_material V (ix3 V (ex, ey, ez)) = Ok m).
Proof.
  intros D H. unfold assembly_rhs in H. apply bind_ok in H. destruct H as (b1 & _ & H). apply bind_ok in H. destruct H as (st & H & _).
  destruct D as [D|D]; rewrite D in H |- *; cbn [Z.eqb Pos.eqb] in H.
  - split; [|discriminate]. intros _ ex ey Hin. apply bind_ok in H. destruct H as (st1 & H & _).
    destruct (foldM_each _ _ _ _ H _ Hin) as (s1 & s2 & E). apply bind_ok in E. destruct E as (re & E & _).
    unfold get_elem_rhs2D in E. assert (I0 : In 0 (zrange 0 4)) by (apply in_zrange; lia).
    destruct (foldM_each _ _ _ _ E _ I0) as (s3 & s4 & E1). apply bind_ok in E1. destruct E1 as (eps & _ & E1). apply bind_ok in E1. destruct E1 as (sg & E1 & _).
    unfold get_stress2D in E1. apply bind_ok in E1. destruct E1 as (mp & E1 & _). exists mp. exact E1.
  - split; [discriminate|]. intros _ ex ey ez Hin. apply bind_ok in H. destruct H as (st1 & H & _).
    destruct (foldM_each _ _ _ _ H _ Hin) as (s1 & s2 & E). apply bind_ok in E. destruct E as (re & E & _).
    unfold get_elem_rhs3D in E. assert (I0 : In 0 (zrange 0 8)) by (apply in_zrange; lia).
    destruct (foldM_each _ _ _ _ E _ I0) as (s3 & s4 & E1). apply bind_ok in E1. destruct E1 as (eps & _ & E1). apply bind_ok in E1. destruct E1 as (sg & E1 & _).
    unfold get_stress3D in E1. apply bind_ok in E1. destruct E1 as (mp & E1 & _). exists mp. exact E1.
Qed.
Lemma ctan_lin_cells V fuel orc w c r : v_dim V = 2 \/ v_dim V = 3 -> calc_ctan_lin fuel orc V w c = Ok r -> exists u vo vn b q, assembly_rhs V u vo vn b = Ok q.
Proof.
  intros D H. unfold calc_ctan_lin in H. assert (I0 : In 0 (zrange 0 (nvoi V))) by (apply in_zrange; unfold nvoi; destruct (v_dim V =? 2); lia).
  destruct (foldM_each _ _ _ _ H _ I0) as (s1 & s2 & E). apply bind_ok in E. destruct E as (q & E & _).
  unfold respond in E. apply bind_ok in E. destruct E as (u & _ & E). apply bind_ok in E. destruct E as (n & E & _).
  unfold newton in E. destruct fuel as [|fuel]; [discriminate|]. cbn [newton_loop] in E. apply bind_ok in E. destruct E as (bd & E & _).
  unfold newton_body in E. apply bind_ok in E. destruct E as (a & E & _). eauto 10.
Qed.

(** the material numbers of the cells *)
Definition mat_no (t : Z) : Z := if t =? 0 then 0 else 1.
Lemma get_mat_known V e t (mt : list Z) ps l : mapM (make_material mt ps) (zrange 0 2) = Ok l -> v_mats V = l -> v_type V = 0 \/ v_type V = 1 ->
  aget (v_etype V) e = Some t -> (exists m, get_material V e = Ok m) -> exists ty, arg mt (mat_no t) = Ok ty /\ mat_type_ok ty.
Proof.
  intros M Em Ht He ((m, p) & H). unfold get_material in H. replace ((v_type V =? 0) || (v_type V =? 1))%bool with true in H by lia.
  unfold rd in H. unfold aget in He. destruct (inb (v_etype V) e) eqn:Ei; [|discriminate]. rewrite He in H. cbn [of_option bind] in H.
  rewrite Em in H. change (zrange 0 2) with [0; 1] in M. cbn [mapM] in M.
  apply bind_ok in M. destruct M as (m0 & M0 & M). apply bind_ok in M. destruct M as (l1 & M1 & M). apply bind_ok in M1. destruct M1 as (m1 & M1 & E1). cbn [bind] in E1.
  injection E1 as <-. injection M as <-.
  assert (X : forall i q, make_material mt ps i = Ok q -> m_plast q <> None -> exists ty, arg mt i = Ok ty /\ mat_type_ok ty).
  { intros i q Q Np. unfold make_material in Q. do 4 (apply bind_ok in Q; destruct Q as (? & _ & Q)). apply bind_ok in Q. destruct Q as (ty & Qt & Q). exists ty. split; [exact Qt|].
    unfold mat_type_ok. destruct (Z.eq_dec ty 0); [auto|]. destruct (Z.eq_dec ty 1); [auto|]. destruct (Z.eq_dec ty 2); [auto|]. exfalso. apply Np.
    destruct ty as [|[[?|?|]|[?|?|]|]|]; try lia; injection Q as <-; reflexivity. }
  unfold mat_no. destruct (t =? 0); change (Z.to_nat 0) with 0%nat in H; change (Z.to_nat 1) with 1%nat in H; cbn [nth_error of_option bind] in H.
  - apply (X 0 m0 M0). intros N. rewrite N in H. discriminate.
  - apply (X 1 m1 M1). intros N. rewrite N in H. discriminate.
Qed.

Lemma make_env_geo j dim size mtype mp V : make_env j dim size mtype mp = Ok V ->
  v_dim V = dim /\ v_type V = mtype /\ v_etype V = malloc (nelem dim (v_nx V) (v_ny V) (v_nz V)) /\ arg size 0 = Ok (v_nx V) /\ arg size 1 = Ok (v_ny V) /\
  (dim = 2 -> v_nz V = 1) /\ (dim <> 2 -> arg size 2 = Ok (v_nz V)) /\ j_tol j = Some (v_inv_tol V).
Proof.
  intros H. unfold make_env in H. apply bind_ok in H. destruct H as (nx & Ex & H). apply bind_ok in H. destruct H as (ny & Ey & H).
  apply bind_ok in H. destruct H as (nz & Ez & H). do 4 (apply bind_ok in H; destruct H as (? & _ & H)).
  apply bind_ok in H. destruct H as (tol & Et & H). injection H as <-. cbn. repeat (split; [first [reflexivity|assumption]|]).
  split; [intros ->; cbn in Ez; congruence|]. split; [intros N; replace (dim =? 2) with false in Ez by lia; exact Ez|]. destruct (j_tol j); [cbn in Et; congruence|discriminate].
Qed.

Theorem demands fuel orc j dim size mtype mp mt ps o : construct fuel orc j dim size mtype mp mt ps = Ok o ->
  (dim = 2 \/ dim = 3) /\ (mtype = 0 \/ mtype = 1) /\ (5 <= length mp)%nat /\ (2 <= length mt)%nat /\ (14 <= length ps)%nat /\
  ((if (dim =? 2)%Z then 2 else 3) <= length size)%nat /\ j_tol j <> None /\
  (dim = 2 -> forall ex ey, 0 <= ex < znth size 0 - 1 -> 0 <= ey < znth size 1 - 1 ->
     exists t ty, elem_type2D (o_env o) ex ey = Ok t /\ arg mt (mat_no t) = Ok ty /\ mat_type_ok ty) /\
  (dim = 3 -> forall ex ey ez, 0 <= ex < znth size 0 - 1 -> 0 <= ey < znth size 1 - 1 -> 0 <= ez < znth size 2 - 1 ->
     exists t ty, elem_type3D (o_env o) ex ey ez = Ok t /\ arg mt (mat_no t) = Ok ty /\ mat_type_ok ty).
Proof.
  intros H. unfold construct in H. destruct (make_env j dim size mtype mp) as [V|] eqn:EV; cbn [bind] in H; [|discriminate].
  destruct (make_env_geo _ _ _ _ _ _ EV) as (Gd & Gt & Ge & Gx & Gy & Gz2 & Gz3 & Gtol).
  destruct (negb _) eqn:Dm in H; [discriminate|]. destruct (negb _) eqn:Mt in H; [discriminate|].
  apply bind_ok in H. destruct H as (pm & Ep & H). apply bind_ok in H. destruct H as (l & M & H). apply bind_ok in H. destruct H as (et & Ef & H).
  apply bind_ok in H. destruct H as (A & _ & H). apply bind_ok in H. destruct H as (wc & Ec & H).
  cbn [v_dim v_nx v_ny v_nz v_lx v_ly v_lz v_dx v_dy v_dz v_width v_inv_tol v_type v_etype] in *.
  assert (D : dim = 2 \/ dim = 3) by lia. assert (Ty : mtype = 0 \/ mtype = 1) by lia.
  set (V0 := sw l V). change (fill_types V0 = Ok et) in Ef. set (V1 := we et V0).
  match type of Ec with calc_ctan_lin _ _ ?W _ _ = _ => change W with V1 in Ec end.
  assert (Eo : o_env o = V1) by (injection H as <-; reflexivity). clear H.
  destruct (fill_types_ok V0) as (a & Ea & La & C2 & C3); [change (v_dim V = 2 \/ v_dim V = 3); rewrite Gd; exact D|change (v_type V = 0 \/ v_type V = 1); rewrite Gt; exact Ty|change (alen (v_etype V) = nelem (v_dim V) (v_nx V) (v_ny V) (v_nz V)); rewrite Ge, Gd; reflexivity|].
  rewrite Ef in Ea. injection Ea as <-. change (v_dim V0) with (v_dim V) in C2, C3.
  assert (D1 : v_dim V1 = 2 \/ v_dim V1 = 3) by (change (v_dim V = 2 \/ v_dim V = 3); rewrite Gd; exact D).
  assert (Ec' : exists u vo vn b q, assembly_rhs V1 u vo vn b = Ok q) by (apply (ctan_lin_cells V1 _ _ _ _ _ D1 Ec)).
  destruct Ec' as (u & vo & vn & b & q & Eq). destruct (rhs_cells V1 _ _ _ _ _ D1 Eq) as (M2 & M3). change (v_dim V1) with (v_dim V) in M2, M3.
  assert (Z0 : znth size 0 = v_nx V /\ znth size 1 = v_ny V /\ (dim <> 2 -> znth size 2 = v_nz V) /\ ((if (dim =? 2)%Z then 2 else 3) <= length size)%nat).
  { pose proof (nth_error_arg _ _ _ Gy) as L1. unfold arg in Gx, Gy, Gz3. cbn [Z.ltb Z.compare] in Gx, Gy, Gz3. unfold znth.
    assert (X : forall i z, of_option OOB (nth_error size i) = Ok z -> nth i size 0 = z) by (intros i z Q; destruct (nth_error size i) eqn:N; [injection Q as ->; now apply nth_error_nth|discriminate]).
    split; [now apply X|]. split; [now apply X|]. split; [intros N; apply X, Gz3, N|].
    destruct (Z.eqb_spec dim 2) as [?|N]; [change (Z.to_nat 1) with 1%nat in L1; lia|]. specialize (Gz3 N). change (Z.to_nat 2) with 2%nat in Gz3.
    destruct (nth_error size 2) eqn:Q; [|discriminate]. assert (nth_error size 2 <> None) as Q' by congruence. apply nth_error_Some in Q'. lia. }
  destruct Z0 as (Zx & Zy & Zz & Zl).
  split; [exact D|]. split; [exact Ty|].
  split; [destruct (mapM_each _ _ _ Ep 4) as (x & Hx); [apply in_zrange; lia|]; apply nth_error_arg in Hx; change (Z.to_nat 4) with 4%nat in Hx; lia|].
  destruct (mapM_each _ _ _ M 1) as (m1 & Hm); [apply in_zrange; lia|]. unfold make_material in Hm.
  do 3 (apply bind_ok in Hm; destruct Hm as (? & _ & Hm)). apply bind_ok in Hm. destruct Hm as (? & H13 & Hm). apply bind_ok in Hm. destruct Hm as (? & Hmt & _).
  apply nth_error_arg in Hmt, H13. change (Z.to_nat 1) with 1%nat in Hmt. change (Z.to_nat (1 * 10 + 3)) with 13%nat in H13.
  split; [lia|]. split; [lia|]. split; [exact Zl|]. split; [congruence|].
  assert (Ty1 : v_type V1 = 0 \/ v_type V1 = 1) by (change (v_type V = 0 \/ v_type V = 1); rewrite Gt; exact Ty).
  split; intros Ed; rewrite Gd, Ed in *.
  - intros ex ey Hx Hy. rewrite Zx in Hx. rewrite Zy in Hy.
    assert (Hin : In (ex, ey) (els2 V1)) by (apply in_els2; cbn; lia).
    destruct (class2_ok V1 ex ey Ty1) as (Ecl & _). exists (class2 V1 ex ey).
    destruct (get_mat_known V1 (ix2 V1 (ex, ey)) (class2 V1 ex ey) mt ps l M eq_refl Ty1 (C2 eq_refl ex ey Hin) (M2 eq_refl ex ey Hin)) as (ty & E1 & E2).
    exists ty. rewrite Eo. auto.
  - intros ex ey ez Hx Hy Hz. rewrite Zx in Hx. rewrite Zy in Hy. rewrite Zz in Hz by lia.
    assert (Hin : In (ex, ey, ez) (els3 V1)) by (apply in_els3; cbn; lia).
    destruct (class3_ok V1 ex ey ez Ty1) as (Ecl & _). exists (class3 V1 ex ey ez).
    destruct (get_mat_known V1 (ix3 V1 (ex, ey, ez)) (class3 V1 ex ey ez) mt ps l M eq_refl Ty1 (C3 eq_refl ex ey ez Hin) (M3 eq_refl ex ey ez Hin)) as (ty & E1 & E2).
    exists ty. rewrite Eo. auto.
Qed.

(** ** A material no cell uses *)
Definition only_matrix V : Prop :=
  (v_dim V = 2 -> forall ex ey, 0 <= ex < v_nx V - 1 -> 0 <= ey < v_ny V - 1 -> elem_type2D V ex ey = Ok 0) /\
  (v_dim V = 3 -> forall ex ey ez, 0 <= ex < v_nx V - 1 -> 0 <= ey < v_ny V - 1 -> 0 <= ez < v_nz V - 1 -> elem_type3D V ex ey ez = Ok 0).
Theorem unused fuel orc j dim nx ny nz mtype mp t0 t t' r ps : 2 <= nx -> 2 <= ny -> dim = 2 \/ 2 <= nz -> (14 <= length ps)%nat ->
  (forall V, make_env j dim [nx; ny; nz] mtype mp = Ok V -> only_matrix V) ->
  match construct fuel orc j dim [nx; ny; nz] mtype mp (t0 :: t :: r) ps, construct fuel orc j dim [nx; ny; nz] mtype mp (t0 :: t' :: r) ps with
  | Ok o, Ok o' => same_runs o o'
  | Err e, Err e' => e = e'
  | _, _ => False
  end.
Proof.
  intros Hx Hy Hz L H. pose proof (construct_swap fuel orc j dim [nx; ny; nz] mtype mp (t0 :: t :: r) (t0 :: t' :: r) ps _ _ (mats_ok t0 t r ps L) (mats_ok t0 t' r ps L)) as C.
  match type of C with ?P -> _ => assert (Hyp : P) end.
  - intros V et EV D Ty Ef e He. destruct (H V EV) as (O2 & O3). destruct (make_env_geo _ _ _ _ _ _ EV) as (Gd & Gt & Ge & Gx & Gy & Gz2 & Gz3 & _).
    change (arg [nx; ny; nz] 0) with (@Ok Z nx) in Gx. change (arg [nx; ny; nz] 1) with (@Ok Z ny) in Gy. change (arg [nx; ny; nz] 2) with (@Ok Z nz) in Gz3.
    injection Gx as Gx. injection Gy as Gy.
    set (V0 := sw [mat_i t0 ps 0; mat_i t ps 1] V) in *. set (V1 := we et V0) in *. change (ncells V1) with (ncells V) in He.
    destruct (fill_types_ok V0) as (a & Ea & La & C2 & C3); [change (v_dim V = 2 \/ v_dim V = 3); rewrite Gd; exact D|change (v_type V = 0 \/ v_type V = 1); rewrite Gt; exact Ty|change (alen (v_etype V) = nelem (v_dim V) (v_nx V) (v_ny V) (v_nz V)); rewrite Ge, Gd; reflexivity|].
    rewrite Ef in Ea. injection Ea as <-. change (v_dim V0) with (v_dim V) in C2, C3.
    assert (E0 : aget et e = Some 0).
    { destruct D as [D|D].
      - destruct (cells2_cover V e ltac:(lia) ltac:(lia) ltac:(lia) He) as ((ex, ey) & Hin & <-). specialize (C2 ltac:(lia) ex ey Hin). apply in_els2 in Hin.
        change (ix2 V0 (ex, ey)) with (ix2 V (ex, ey)) in C2. rewrite C2. change (class2 V0 ex ey) with (class2 V ex ey). unfold class2. now rewrite O2 by lia.
      - specialize (Gz3 ltac:(lia)). injection Gz3 as Gz3.
        destruct (cells3_cover V e ltac:(lia) ltac:(lia) ltac:(lia) ltac:(lia) He) as (((ex, ey), ez) & Hin & <-). specialize (C3 ltac:(lia) ex ey ez Hin). apply in_els3 in Hin.
        change (ix3 V0 (ex, ey, ez)) with (ix3 V (ex, ey, ez)) in C3. rewrite C3. change (class3 V0 ex ey ez) with (class3 V ex ey ez). unfold class3. now rewrite O3 by lia. }
    unfold get_material. cbn [v_type v_etype v_mats V1 we sw]. change (v_type V0) with (v_type V). change (v_etype V1) with et. rewrite Gt. replace ((mtype =? 0) || (mtype =? 1))%bool with true by lia.
    unfold rd. unfold aget in E0. destruct (inb et e); [|discriminate]. rewrite E0. reflexivity.
  - specialize (C Hyp). destruct (construct _ _ _ _ _ _ _ (t0 :: t :: r) _) as [o|], (construct _ _ _ _ _ _ _ (t0 :: t' :: r) _) as [o'|]; try exact C. apply C.
Qed.
Lemma unused_ok fuel orc j dim nx ny nz mtype mp t0 t t' r ps o : 2 <= nx -> 2 <= ny -> dim = 2 \/ 2 <= nz -> (14 <= length ps)%nat ->
  (forall V, make_env j dim [nx; ny; nz] mtype mp = Ok V -> only_matrix V) ->
  construct fuel orc j dim [nx; ny; nz] mtype mp (t0 :: t :: r) ps = Ok o -> exists o', construct fuel orc j dim [nx; ny; nz] mtype mp (t0 :: t' :: r) ps = Ok o'.
Proof.
  intros Hx Hy Hz L H E. pose proof (unused fuel orc j dim nx ny nz mtype mp t0 t t' r ps Hx Hy Hz L H) as U. rewrite E in U.
  destruct (construct _ _ _ _ _ _ _ (t0 :: t' :: r) _) as [o'|]; [eauto|destruct U].
Qed.
Lemma damage_ok fuel orc j dim size mtype mp mt mt' ps o : Forall2 alike mt mt' -> construct fuel orc j dim size mtype mp mt ps = Ok o -> exists o', construct fuel orc j dim size mtype mp mt' ps = Ok o'.
Proof.
  intros F E. pose proof (damage_linear fuel orc j dim size mtype mp mt mt' ps F) as U. rewrite E in U. destruct (construct _ _ _ _ _ _ _ mt' _) as [o'|]; [eauto|destruct U].
Qed.
Lemma counted dim nx ny nz mtype mp mt ps tol : valid_args dim nx ny nz mtype mp mt ps -> exists o, construct fuel40 (fun _ => counting) (flat_junk tol) dim [nx; ny; nz] mtype mp mt ps = Ok o.
Proof.
  intros A. pose proof (construct_ok fuel40 (fun _ => counting) (flat_junk tol) dim nx ny nz mtype mp mt ps A (flat_total tol)) as H.
  destruct (construct fuel40 (fun _ => counting) (flat_junk tol) dim [nx; ny; nz] mtype mp mt ps) as [o|e]; [eauto|]. destruct H as (i & H). elim (counting_good _ _ fuel40_ok H).
Qed.
End Invalid.

(** ** Cases *)
From Coq Require Import Reals Lra.
Open Scope Z_scope.
Open Scope R_scope.
Definition flat5 : list R := [1; 1; 1; 0; 0].
Lemma flat_only j V : make_env j 2 [4; 5; 1]%Z 1 flat5 = Ok V -> only_matrix V.
Proof.
  unfold make_env. change (arg [4; 5; 1]%Z 0) with (@Ok Z 4%Z). change (arg [4; 5; 1]%Z 1) with (@Ok Z 5%Z). change (2 =? 2)%Z with true.
  rewrite !(arg_ok (T := R)) by (cbn; lia). cbn [bind]. destruct (j_tol j) as [tol|]; cbn [of_option bind]; [|discriminate]. intros [= <-].
  split; [|discriminate]. cbn [v_dim v_nx v_ny]. intros _ ex ey Hex Hey. unfold elem_type2D. cbn [v_type v_dx v_dy v_lx v_ly v_width]. change (1 =? 0)%Z with false. change (1 =? 1)%Z with true. cbn [Z.eqb].
  change (lget flat5 1) with 1. change (lget flat5 3) with 0. f_equal.
  match goal with |- context [oltb ?a ?b] => assert (E : oltb a b = false) end; [|now rewrite E].
  apply Rltb_false. change (0 <= IZR ey * (1 / IZR 4) + 1 / IZR 4 / 2). assert (0 <= IZR ey) by (apply IZR_le; lia). nra.
Qed.
Lemma flat_args t1 : mat_type_ok t1 -> valid_args 2 4 5 1 1 flat5 [0; t1]%Z ps20.
Proof. intros H. constructor; try lia; try (cbn; lia). exists 0%Z, t1, []. unfold mat_type_ok. auto. Qed.
Lemma unknown_unused : exists o, construct fuel40 (fun _ => counting) (flat_junk 1) 2 [4; 5; 1]%Z 1 flat5 [0; 7]%Z ps20 = Ok o.
Proof.
  destruct (counted 2 4 5 1 1 flat5 [0; 0]%Z ps20 1 (flat_args 0 ltac:(now left))) as (o & E).
  exact (unused_ok fuel40 (fun _ => counting) (flat_junk 1) 2 4 5 1 1 flat5 0 0 7 [] ps20 o ltac:(lia) ltac:(lia) ltac:(now left) ltac:(cbn; lia) (flat_only _) E).
Qed.
Lemma damage_ex : exists o o', Forall2 alike [1; 2]%Z [1; 0]%Z /\ construct fuel40 (fun _ => counting) (flat_junk 1) 3 [4; 5; 3]%Z 0 mp5 [1; 2]%Z ps20 = Ok o /\
  construct fuel40 (fun _ => counting) (flat_junk 1) 3 [4; 5; 3]%Z 0 mp5 [1; 0]%Z ps20 = Ok o'.
Proof.
  assert (F : Forall2 alike [1; 2]%Z [1; 0]%Z) by (unfold alike; constructor; [now left|constructor; [right; tauto|constructor]]).
  destruct (counted 3 4 5 3 0 mp5 [1; 2]%Z ps20 1 (real_args3 4 5 3 1 2 ltac:(lia) ltac:(lia) ltac:(lia) ltac:(apply types_ok) ltac:(apply types_ok))) as (o & E).
  destruct (damage_ok fuel40 (fun _ => counting) (flat_junk 1) 3 [4; 5; 3]%Z 0 mp5 [1; 2]%Z [1; 0]%Z ps20 o F E) as (o' & E'). exists o, o'. auto.
Qed.
