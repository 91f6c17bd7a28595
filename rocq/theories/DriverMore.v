(** The test programs in exact arithmetic, and ell_print: C83, C86, C87. *)
From Coq Require Import String ZifyBool Reals Lra FSets.FMapPositive.
From Verif Require Import Base Scalar EllSpec EllModel EllInit Grid AssemblyModel AsmPure MicroModel OutputModel NewtonBase ApiBase ApiRun ApiHist Build ApiSpec ApiProps ApiCases DriverModel DriverProps.
Open Scope string_scope.
Open Scope list_scope.
Open Scope Z_scope.

(** ** The strain of the loading history, in hundredths after k steps *)
Definition hundredths (k : Z) : Z :=
  if k <=? 30 then k else if k <=? 80 then 60 - k else if k <=? 130 then k - 100 else if k <=? 250 then 160 - k else k - 340.
Lemma level_value (k : nat) : (level k : R) = (IZR (hundredths (Z.of_nat k)) / 100)%R.
Proof.
  induction k as [|k IH]; [change ((0)%R = (0 / 100)%R); lra|].
  assert (E : (level (S k) : R) = (IZR (hundredths (Z.of_nat k) + (if up (Z.of_nat k) then 1 else -1)) / 100)%R).
  { cbn [level]. rewrite IH. destruct (up (Z.of_nat k)); rewrite plus_IZR; cbn [oadd osub odiv ofZ ROps]; lra. }
  rewrite E. do 2 f_equal. clear. rewrite Nat2Z.inj_succ. assert (H : 0 <= Z.of_nat k) by lia. set (t := Z.of_nat k) in *. unfold up, hundredths.
  destruct (Z.ltb_spec t 30), (Z.leb_spec 80 t), (Z.ltb_spec t 130), (Z.leb_spec 250 t); try lia; cbn [orb andb];
    repeat match goal with |- context [?a <=? ?b] => destruct (Z.leb_spec a b) end; lia.
Qed.
Lemma within k : 0 <= k <= 370 -> -90 <= hundredths k <= 30.
Proof. intros H. unfold hundredths. repeat match goal with |- context [?a <=? ?b] => destruct (Z.leb_spec a b) end; lia. Qed.

(** ** test3d_8: the layer has no stiffness *)
Section Layer.
Local Open Scope R_scope.
Definition is_layer (ny ey : Z) : Prop := (IZR ey + 1 / 2) / IZR (ny - 1) < 1 / 10.
Lemma mats8_second : mat_i 0 (mats_3d_8 : list R) 1 = the_mat 0 0 0 0 0.
Proof. reflexivity. Qed.
Lemma layer_class (V : env R) nx ny nz tol ex ey ez : env_of 3 nx ny nz 1 (cell_params_8 : list R) [1; 0]%Z mats_3d_8 tol V -> (2 <= ny)%Z -> is_layer ny ey -> class3 V ex ey ez = 1%Z.
Proof.
  intros E Hy L. unfold class3, elem_type3D. rewrite (eo_type _ _ _ _ _ _ _ _ _ _ E). cbn [Z.eqb Pos.eqb].
  rewrite (eo_dy _ _ _ _ _ _ _ _ _ _ E), (eo_ly _ _ _ _ _ _ _ _ _ _ E), (eo_width _ _ _ _ _ _ _ _ _ _ E).
  change (lget (cell_params_8 : list R) 1) with 1. change (lget (cell_params_8 : list R) 3) with (IZR 1 / IZR (10 ^ 1)). change ((10 ^ 1)%Z) with 10%Z.
  match goal with |- (if oltb ?a ?b then _ else _) = _ => assert (H : oltb a b = true); [|rewrite H; reflexivity] end.
  apply Rltb_true. cbn [oadd omul odiv ofZ ROps]. unfold is_layer in L. assert (0 < IZR (ny - 1)) by (apply (IZR_lt 0); lia).
  replace (IZR ey * (1 / IZR (ny - 1)) + 1 / IZR (ny - 1) / 2) with ((IZR ey + 1 / 2) / IZR (ny - 1)) by (field; lra). exact L.
Qed.
Theorem layer_void fuel q0 (j : junk R) nx ny nz o0 cs o fs ex ey ez gp eps vold vnew : (2 <= nx -> 2 <= ny -> 2 <= nz -> total_junk j ->
  construct fuel q0 j 3 [nx; ny; nz] 1 cell_params_8 [1; 0] mats_3d_8 = Ok o0 -> reaches o0 cs o fs ->
  0 <= ex < nx - 1 -> 0 <= ey < ny - 1 -> 0 <= ez < nz - 1 -> is_layer ny ey ->
  get_stress3D (o_env o) vold vnew ex ey ez gp eps = Ok (false, [0%R; 0%R; 0%R; 0%R; 0%R; 0%R], vnew))%Z.
Proof.
  intros Hx Hy Hz J C Re Hex Hey Hez L.
  assert (A : valid_args 3 nx ny nz 1 (cell_params_8 : list R) [1; 0]%Z mats_3d_8) by (apply layer_args; try lia; [right; now left|now left|cbn; lia|rewrite mats8_len; lia]).
  pose proof (construct_ok fuel q0 j 3 nx ny nz 1 cell_params_8 [1; 0]%Z mats_3d_8 A J) as K. rewrite C in K. destruct K as (_ & (tol & _ & V) & _).
  assert (O : is_object o0) by (exists 3%Z, nx, ny, nz, 1%Z, cell_params_8, [1; 0]%Z, mats_3d_8, fuel, q0, j; auto).
  destruct (reach_inv o0 cs o fs O Re) as (_ & (Ev & _) & _). rewrite Ev. clear Ev. set (W := o_env o0) in *.
  unfold get_stress3D, get_material. rewrite (eo_type _ _ _ _ _ _ _ _ _ _ V). cbn [Z.eqb Pos.eqb orb].
  unfold glo_elem3D. rewrite (eo_nx _ _ _ _ _ _ _ _ _ _ V), (eo_ny _ _ _ _ _ _ _ _ _ _ V).
  rewrite (rd_aget _ _ _ (eo_etype3 _ _ _ _ _ _ _ _ _ _ V eq_refl ex ey ez Hex Hey Hez)). cbn [bind].
  rewrite (layer_class W nx ny nz tol ex ey ez V Hy L). cbn [Z.eqb Pos.eqb bind].
  destruct (eo_mats _ _ _ _ _ _ _ _ _ _ V) as (t0 & t1 & r' & [= <- <- <-] & Em). rewrite Em. change (Z.to_nat 1) with 1%nat. cbn [nth_error of_option bind].
  rewrite mats8_second. cbn [the_mat flags fst snd m_plast of_option bind m_lambda m_mu]. do 3 f_equal.
  unfold lin_stress3, ltab. change (zrange 0 6) with [0; 1; 2; 3; 4; 5]%Z. cbn [map Z.ltb Z.compare Pos.compare Pos.compare_cont oadd osub omul odiv ofZ ROps]. repeat f_equal; unfold Rdiv; ring.
Qed.
End Layer.

(** ** ell_print *)
Section Print.
Context {T : Type} `{OT : Ops T}.
Notation toks := (list (tok T)).
(** a table of nrow rows: the number of the row, then its nnz entries *)
Definition table (nrow nnz : Z) (f : Z -> Z -> tok T) : toks :=
  flat_map (fun i => [TS "row= "; TI i] ++ flat_map (fun j => [f i j; TS " "]) (zrange 0 nnz) ++ [NL]) (zrange 0 nrow).
Lemma emit_ok {A} (f : A -> res toks) g l : (forall x, In x l -> f x = Ok (g x)) -> emit f l = Ok (flat_map g l).
Proof. intros H. unfold emit. rewrite (Base.mapM_ok f g l H). cbn [bind]. now rewrite <- flat_map_concat_map. Qed.
Lemma rows_ok nrow nnz (f : Z -> res (tok T)) g : (forall i j, 0 <= i < nrow -> 0 <= j < nnz -> f (i * nnz + j) = Ok (g i j)) -> print_rows nrow nnz f = Ok (table nrow nnz g).
Proof.
  intros H. unfold print_rows, table. apply emit_ok. intros i Hi. apply in_zrange in Hi. rewrite (emit_ok _ (fun j => [g i j; TS " "])); [reflexivity|].
  intros j Hj. apply in_zrange in Hj. now rewrite H by assumption.
Qed.
Theorem print_ok nrow nnz (cols : arr Z) (vals : arr T) c v : (forall i j, 0 <= i < nrow -> 0 <= j < nnz -> aget cols (i * nnz + j) = Some (c i j) /\ aget vals (i * nnz + j) = Some (v i j)) ->
  ell_print (Some (nrow, nnz, Some cols, Some vals)) =
    Ok (0, [TS "Cols = "; NL] ++ table nrow nnz (fun i j => TI (c i j)) ++ [TS "Vals = "; NL] ++ table nrow nnz (fun i j => TD (v i j))).
Proof.
  intros H. cbn [ell_print]. rewrite (rows_ok nrow nnz _ (fun i j => TI (c i j))). 2:{ intros i j Hi Hj. now rewrite (rd_aget _ _ _ (proj1 (H i j Hi Hj))). }
  cbn [bind]. rewrite (rows_ok nrow nnz _ (fun i j => TD (v i j))). 2:{ intros i j Hi Hj. now rewrite (rd_aget _ _ _ (proj2 (H i j Hi Hj))). }
  reflexivity.
Qed.
Lemma mapM_fail {A B} (f : A -> res B) x l e : f x = Err e -> mapM f (x :: l) = Err e.
Proof. intros H. cbn [mapM]. now rewrite H. Qed.
Lemma rows_uninit nrow nnz n : 1 <= nrow -> 1 <= nnz -> 1 <= n -> print_rows nrow nnz (fun k => x <- rd (malloc n : arr T) k ;; Ok (TD x)) = Err Uninit.
Proof.
  intros Hr Hn H1. unfold print_rows, emit at 1. rewrite (zrange_cons 0 nrow) by lia. erewrite mapM_fail; [reflexivity|].
  unfold emit. rewrite (zrange_cons 0 nnz) by lia. erewrite mapM_fail; [reflexivity|]. unfold rd, inb, malloc. cbn [alen acells]. replace ((0 <=? 0 * nnz + 0) && (0 * nnz + 0 <? n)) with true by lia.
  now destruct (key (0 * nnz + 0)).
Qed.
Theorem print_fresh_3 nF nx ny nz (A : ell T) : 2 <= nx -> 2 <= ny -> 2 <= nz -> 1 <= nF -> ell_init_3D nF nx ny nz = Ok A ->
  ell_print (Some (e_nrow A, e_nnz A, Some (e_cols A), Some (e_vals A))) = Err Uninit.
Proof.
  intros Hx Hy Hz Hf E. destruct (@init_3D_ok T nF nx ny nz Hx Hy Hz Hf) as (m & E' & R & _ & N & L & V & C). rewrite E in E'. injection E' as <-. cbn [ell_print].
  assert (0 < nx * ny * nz) by (apply Z.mul_pos_pos; nia). rewrite R, N, V.
  rewrite (rows_ok _ _ _ (fun i j => match aget (e_cols A) (i * (27 * nF) + j) with Some c => TI c | None => NL end)).
  - cbn [bind]. rewrite rows_uninit; [reflexivity|nia|lia|nia].
  - intros i j Hi Hj.
    assert (Q : exists c, aget (e_cols A) (i * (27 * nF) + j) = Some c).
    { pose proof (Z.div_mod i nF ltac:(lia)) as D1. pose proof (Z.mod_pos_bound i nF ltac:(lia)) as B1. set (p := i / nF) in *. set (d := i mod nF) in *.
      pose proof (Z.div_mod j nF ltac:(lia)) as D2. pose proof (Z.mod_pos_bound j nF ltac:(lia)) as B2. set (s := j / nF) in *. set (d2 := j mod nF) in *.
      assert (Hp : 0 <= p < nx * ny * nz) by (clear -D1 B1 Hi Hf; nia). assert (Hs : 0 <= s < 27) by (clear -D2 B2 Hj Hf; nia).
      pose proof (Z.div_mod p nx ltac:(lia)) as D3. pose proof (Z.mod_pos_bound p nx ltac:(lia)) as B3. set (x := p mod nx) in *. set (q := p / nx) in *.
      pose proof (Z.div_mod q ny ltac:(lia)) as D4. pose proof (Z.mod_pos_bound q ny ltac:(lia)) as B4. set (y := q mod ny) in *. set (z := q / ny) in *.
      assert (Hq : 0 <= q < ny * nz) by (clear -D3 B3 Hp Hx; nia). assert (Hzz : 0 <= z < nz) by (clear -D4 B4 Hq Hy; nia).
      eexists. rewrite <- (C x y z d s d2) by lia. f_equal. unfold cell, node. rewrite D1 at 1. rewrite D2 at 1. rewrite D3, D4. ring. }
    destruct Q as (c & Q). rewrite (rd_aget _ _ _ Q), Q. reflexivity.
Qed.
End Print.

(** ** Examples *)
Definition old_files : files R := mkFiles [] [] [] [] [].
Definition zero_mem : junk R := flat_junk (IZR 1).
Lemma ex_3d : total_junk zero_mem /\ (exists fs out, test3d_1 fuel40 (fun _ => counting) (fun _ _ _ => counting) (fun _ => counting) zero_mem IZR [3; 4; 5; 1; 7] old_files = Ok (0, fs, out)) /\
  exists fs out, test3d_7 fuel40 (fun _ => counting) (fun _ _ _ => counting) (fun _ => counting) zero_mem IZR [3; 4; 5; 7] old_files = Ok (0, fs, out).
Proof.
  split; [apply flat_total|].
  exact (ends_3d fuel40 zero_mem IZR 3 4 5 1 [7] old_files fuel40_ok ltac:(lia) ltac:(lia) ltac:(lia) ltac:(lia) (flat_total _)).
Qed.
Lemma ex_8 : (exists fs out, test3d_8 fuel40 (fun _ => counting) (fun _ _ _ => counting) zero_mem [3; 8; 3; 7] old_files = Ok (0, fs, out)) /\
  (exists o0, construct fuel40 (fun _ => counting) zero_mem 3 [3; 8; 3] 1 cell_params_8 [1; 0] mats_3d_8 = Ok o0) /\ is_layer 8 0.
Proof.
  split; [exact (ends_3d_8 fuel40 zero_mem 3 8 3 [7] old_files fuel40_ok ltac:(lia) ltac:(lia) ltac:(lia) (flat_total _))|]. split.
  - assert (A : valid_args 3 3 8 3 1 (cell_params_8 : list R) [1; 0]%Z mats_3d_8) by (apply layer_args; try lia; [right; now left|now left|cbn; lia|rewrite mats8_len; lia]).
    pose proof (construct_ok fuel40 (fun _ => counting) zero_mem 3 3 8 3 1 cell_params_8 [1; 0] mats_3d_8 A (flat_total _)) as C.
    destruct construct as [o|e]; [eauto|]. destruct C as (i & C). elim (counting_good _ _ fuel40_ok C).
  - unfold is_layer. change (8 - 1) with 7. lra.
Qed.
(** a matrix of two rows of one entry each *)
Definition two (A : Type) (x y : A) : arr A := mkArr 2 (PositiveMap.add (key 0) x (PositiveMap.add (key 1) y (PositiveMap.empty A))).
Lemma ex_print : ell_print (Some (2, 1, Some (two Z 7 8), Some (two R 5%R 6%R))) =
  Ok (0, [TS "Cols = "; NL; TS "row= "; TI 0; TI 7; TS " "; NL; TS "row= "; TI 1; TI 8; TS " "; NL;
          TS "Vals = "; NL; TS "row= "; TI 0; TD 5%R; TS " "; NL; TS "row= "; TI 1; TD 6%R; TS " "; NL]).
Proof. reflexivity. Qed.

(** ell_print without a matrix or without its arrays *)
Lemma print_null {T} : forall nrow nnz (cols : option (arr Z)) (vals : option (arr T)), cols = None \/ vals = None ->
  ell_print (None : option (Z * Z * option (arr Z) * option (arr T))) = Ok (1, []) /\
  ell_print (Some (nrow, nnz, cols, vals)) = Ok (2, []).
Proof. intros nrow nnz cols vals [-> | ->]; split; try reflexivity; destruct cols; reflexivity. Qed.
