(** IEEE 754 binary64 once more, with the values that are not the value of any bit pattern left
    out: the type [binary_float 53 1024] of the Flocq library.  The operations are those of
    FloatInst.v (theorem [same_double]), and Flocq relates them to real numbers.  Flocq has no
    axioms of its own. *)
From Coq Require Import Reals Lra.
From Coq Require Import Floats.SpecFloat.
From Flocq Require Import Core BinarySingleNaN Relative Plus_error.
From Verif Require Import Base Scalar FloatInst.
Open Scope Z_scope.
Open Scope R_scope.

#[local] Instance prec_pos : Prec_gt_0 53 := eq_refl _.
#[local] Instance prec_small : Prec_lt_emax 53 1024 := eq_refl _.

(** a double *)
Notation flt := (binary_float 53 1024).

#[global] Instance B64 : Ops flt := {
  ofZ z := binary_normalize 53 1024 _ _ mode_NE z 0 false;
  oadd := Bplus mode_NE;
  osub := Bminus mode_NE;
  omul := Bmult mode_NE;
  odiv := Bdiv mode_NE;
  oopp := Bopp;
  osqrt := Bsqrt mode_NE;
  oabs := Babs;
  oltb := Bltb }.

(** ** The two instances are the same arithmetic *)
Lemma nearest_same : forall s m l, round_nearest_even m l = choice_mode mode_NE s m l.
Proof. intros s m [|[]]; try reflexivity. simpl. unfold Round.cond_incr. now case Z.even. Qed.
Lemma round_aux_same : forall sx mx ex lx,
  SpecFloat.binary_round_aux 53 1024 sx mx ex lx = binary_round_aux 53 1024 mode_NE sx mx ex lx.
Proof.
  intros. unfold SpecFloat.binary_round_aux, binary_round_aux.
  set (q := shr_fexp _ _ _). case q; intros a b. cbv beta iota zeta. now rewrite (nearest_same sx).
Qed.
Lemma round_same : forall s m e,
  SpecFloat.binary_round 53 1024 s m e = binary_round 53 1024 mode_NE s m e.
Proof.
  intros. unfold SpecFloat.binary_round, binary_round, shl_align_fexp.
  set (q := shl_align _ _ _). case q; intros a b. apply round_aux_same.
Qed.
Lemma normalize_same : forall m e z,
  SpecFloat.binary_normalize 53 1024 m e z = B2SF (binary_normalize 53 1024 _ _ mode_NE m e z).
Proof.
  intros [|p|p] e z; [reflexivity| |]; simpl; rewrite B2SF_SF2B; apply round_same.
Qed.

(** the sign, mantissa and exponent of a double, in the arithmetic of FloatInst.v *)
Theorem same_double : forall x y : flt,
  (forall z, B2SF (ofZ z) = ofZ z) /\ B2SF (oadd x y) = oadd (B2SF x) (B2SF y) /\
  B2SF (osub x y) = osub (B2SF x) (B2SF y) /\ B2SF (omul x y) = omul (B2SF x) (B2SF y) /\
  B2SF (odiv x y) = odiv (B2SF x) (B2SF y) /\ B2SF (oopp x) = oopp (B2SF x) /\
  B2SF (osqrt x) = osqrt (B2SF x) /\ B2SF (oabs x) = oabs (B2SF x) /\
  oltb x y = oltb (B2SF x) (B2SF y).
Proof.
  intros x y. unfold ofZ, oadd, osub, omul, odiv, oopp, osqrt, oabs, oltb, B64, F64.
  change f64_prec with 53%Z. change f64_emax with 1024%Z.
  split; [intro z; symmetry; apply normalize_same|].
  split.
  { destruct x as [sx|sx| |sx mx ex Bx]; destruct y as [sy|sy| |sy my ey By];
      [now (trivial || simpl; case Bool.eqb).. | ]. symmetry; apply normalize_same. }
  split.
  { destruct x as [sx|sx| |sx mx ex Bx]; destruct y as [sy|sy| |sy my ey By];
      [now (trivial || simpl; case Bool.eqb).. | ]. simpl. unfold Zminus.
    rewrite <- cond_Zopp_negb. symmetry; apply normalize_same. }
  split.
  { destruct x as [sx|sx| |sx mx ex Bx]; destruct y as [sy|sy| |sy my ey By]; [now trivial.. | ].
    simpl. rewrite B2SF_SF2B. symmetry; apply round_aux_same. }
  split.
  { destruct x as [sx|sx| |sx mx ex Bx]; destruct y as [sy|sy| |sy my ey By]; [now trivial.. | ].
    simpl. rewrite B2SF_SF2B. set (q := SFdiv_core_binary _ _ _ _ _ _). case q as [[mz ez] lz].
    symmetry; apply round_aux_same. }
  split; [destruct x; reflexivity|].
  split.
  { destruct x as [sx|[|]| |[|] mx ex Bx]; try reflexivity. simpl. rewrite B2SF_SF2B.
    set (q := SFsqrt_core_binary _ _ _ _). case q as [[mz ez] lz]. symmetry; apply round_aux_same. }
  split; [destruct x; reflexivity|reflexivity].
Qed.

(** ** What an operation does to the values *)
(** neither infinite nor NaN *)
Definition fin (x : flt) : Prop := is_finite x = true.
(** the value; 0 for the infinities and NaN *)
Notation val := (@B2R 53 1024).
(** half the distance from 1 to the next double: 2^-53 *)
Definition uro : R := / IZR (2 ^ 53).
(** half the smallest positive double: 2^-1075 *)
Definition eta : R := bpow radix2 (-1075).

Lemma uro_bpow : uro = bpow radix2 (-53).
Proof. reflexivity. Qed.
Lemma uro_pos : 0 < uro.
Proof. rewrite uro_bpow. apply bpow_gt_0. Qed.
Lemma eta_pos : 0 < eta.
Proof. apply bpow_gt_0. Qed.
Lemma uro_val : uro = / 9007199254740992.
Proof. reflexivity. Qed.

Notation fx := (SpecFloat.fexp 53 1024).
Notation rnd := (round radix2 fx (round_mode mode_NE)).
Lemma fx_flt : forall e, fx e = FLT_exp (-1074) 53 e.
Proof. reflexivity. Qed.

Lemma rnd_error : forall x, Rabs (rnd x - x) <= uro * Rabs x + eta.
Proof.
  intro x. destruct (error_N_FLT radix2 (-1074) 53 eq_refl (fun n => negb (Z.even n)) x) as (e & t & E & F & _ & Q).
  change (rnd x) with (round radix2 (FLT_exp (-1074) 53) (Znearest (fun n => negb (Z.even n))) x).
  rewrite Q. replace (x * (1 + e) + t - x) with (e * x + t) by ring.
  eapply Rle_trans; [apply Rabs_triang|]. rewrite Rabs_mult.
  apply Rplus_le_compat.
  - apply Rmult_le_compat_r; [apply Rabs_pos|]. rewrite uro_bpow. eapply Rle_trans; [exact E|].
    right. change (/ 2) with (bpow radix2 (-1)). rewrite <- bpow_plus. reflexivity.
  - eapply Rle_trans; [exact F|]. right. unfold eta. change (/ 2) with (bpow radix2 (-1)).
    rewrite <- bpow_plus. reflexivity.
Qed.

Lemma rnd_sum_error : forall x y : flt, Rabs (rnd (val x + val y) - (val x + val y)) <= uro * Rabs (val x + val y).
Proof.
  intros x y.
  destruct (FLT_plus_error_N_ex radix2 (-1074) 53 (fun n => negb (Z.even n)) (val x) (val y)) as (e & E & Q).
  - apply generic_format_B2R.
  - apply generic_format_B2R.
  - change (rnd (val x + val y)) with
      (round radix2 (FLT_exp (-1074) 53) (Znearest (fun n => negb (Z.even n))) (val x + val y)).
    rewrite Q. replace ((val x + val y) * (1 + e) - (val x + val y)) with (e * (val x + val y)) by ring.
    rewrite Rabs_mult. apply Rmult_le_compat_r; [apply Rabs_pos|].
    eapply Rle_trans; [exact E|]. eapply Rle_trans; [apply u_rod1pu_ro_le_u_ro|].
    right. unfold u_ro. rewrite uro_bpow. change (/ 2) with (bpow radix2 (-1)). rewrite <- bpow_plus. reflexivity.
Qed.

(** a finite sum has finite terms, and so on *)
Lemma fin_add : forall x y : flt, fin (oadd x y) -> fin x /\ fin y.
Proof. intros [ | [] | | ] [ | [] | | ]; cbn; intro H; try discriminate H; split; reflexivity || exact H. Qed.
Lemma fin_sub : forall x y : flt, fin (osub x y) -> fin x /\ fin y.
Proof. intros [ | [] | | ] [ | [] | | ]; cbn; intro H; try discriminate H; split; reflexivity || exact H. Qed.
Lemma fin_mul : forall x y : flt, fin (omul x y) -> fin x /\ fin y.
Proof. intros [ | | | ] [ | | | ]; cbn; intro H; try discriminate H; split; reflexivity. Qed.
Lemma fin_div : forall x y : flt, fin (odiv x y) -> fin y -> fin x /\ val y <> 0.
Proof.
  intros [ | | | sx mx ex Bx] [ | | | sy my ey By]; cbn; intros H F; try discriminate H; try discriminate F;
    (split; [reflexivity|]); intro Z; apply (@F2R_neq_0 radix2 (Float radix2 (cond_Zopp sy (Zpos my)) ey)); try exact Z; destruct sy; discriminate.
Qed.
Lemma fin_sqrt : forall x : flt, fin (osqrt x) -> fin x /\ 0 <= val x.
Proof.
  intros [ | [] | | [] mx ex Bx]; cbn; intro H; try discriminate H; split; try reflexivity; try lra.
  apply F2R_ge_0. cbn. discriminate.
Qed.
Lemma fin_opp : forall x : flt, fin (oopp x) <-> fin x.
Proof. intro x. unfold fin. cbn. rewrite is_finite_Bopp. reflexivity. Qed.
Lemma fin_abs : forall x : flt, fin (oabs x) <-> fin x.
Proof. intro x. unfold fin. cbn. rewrite is_finite_Babs. reflexivity. Qed.
(** the value of an overflow is not finite *)
Lemma over_fin : forall (x : flt) s, B2SF x = binary_overflow 53 1024 mode_NE s -> ~ fin x.
Proof. intros x s H F. destruct x; cbn in *; try discriminate H; discriminate F. Qed.

(** each operation returns the exact result with a relative error of 2^-53, and near the
    smallest numbers an absolute error of 2^-1075 *)
Theorem add_error : forall x y : flt, fin (oadd x y) -> Rabs (val (oadd x y) - (val x + val y)) <= uro * Rabs (val x + val y).
Proof.
  intros x y F. destruct (fin_add x y F) as [Fx Fy]. pose proof (Bplus_correct 53 1024 _ _ mode_NE x y Fx Fy) as H.
  cbn [oadd B64] in *. destruct (Rlt_bool _ _).
  - destruct H as [H _]. rewrite H. apply rnd_sum_error.
  - destruct H as [H _]. destruct (over_fin _ _ H F).
Qed.
Theorem sub_error : forall x y : flt, fin (osub x y) -> Rabs (val (osub x y) - (val x - val y)) <= uro * Rabs (val x - val y).
Proof.
  intros x y F. destruct (fin_sub x y F) as [Fx Fy]. pose proof (Bminus_correct 53 1024 _ _ mode_NE x y Fx Fy) as H.
  cbn [osub B64] in *. destruct (Rlt_bool _ _).
  - destruct H as [H _]. rewrite H. pose proof (rnd_sum_error x (Bopp y)) as K. rewrite B2R_Bopp in K. exact K.
  - destruct H as [H _]. destruct (over_fin _ _ H F).
Qed.
Theorem mul_error : forall x y : flt, fin (omul x y) -> Rabs (val (omul x y) - val x * val y) <= uro * Rabs (val x * val y) + eta.
Proof.
  intros x y F. pose proof (Bmult_correct 53 1024 _ _ mode_NE x y) as H. cbn [omul B64] in *. destruct (Rlt_bool _ _).
  - destruct H as [H _]. rewrite H. apply rnd_error.
  - destruct (over_fin _ _ H F).
Qed.
Theorem div_error : forall x y : flt, fin (odiv x y) -> fin y ->
  Rabs (val (odiv x y) - val x / val y) <= uro * Rabs (val x / val y) + eta.
Proof.
  intros x y F Fy. destruct (fin_div x y F Fy) as [_ N]. pose proof (Bdiv_correct 53 1024 _ _ mode_NE x y N) as H.
  cbn [odiv B64] in *. destruct (Rlt_bool _ _).
  - destruct H as [H _]. rewrite H. apply rnd_error.
  - destruct (over_fin _ _ H F).
Qed.
Theorem sqrt_error : forall x : flt, Rabs (val (osqrt x) - sqrt (val x)) <= uro * sqrt (val x) + eta.
Proof.
  intro x. pose proof (Bsqrt_correct 53 1024 _ _ mode_NE x) as [H _]. cbn [osqrt B64]. rewrite H.
  pose proof (rnd_error (sqrt (val x))) as K. rewrite (Rabs_pos_eq (sqrt (val x))) in K; [exact K|apply sqrt_pos].
Qed.
Lemma val_opp : forall x : flt, val (oopp x) = - val x.
Proof. intro x. apply B2R_Bopp. Qed.
Lemma val_abs : forall x : flt, val (oabs x) = Rabs (val x).
Proof. intro x. apply B2R_Babs. Qed.

(** the comparison of finite doubles is that of their values *)
Theorem lt_val : forall x y : flt, fin x -> fin y -> (oltb x y = true <-> val x < val y).
Proof.
  intros x y Fx Fy. cbn [oltb B64]. rewrite (Bltb_correct 53 1024 x y Fx Fy).
  destruct (Rlt_bool_spec (val x) (val y)); split; intro K; try lra; try reflexivity; discriminate.
Qed.

(** the integers up to 2^53 are doubles *)
Lemma int_format : forall z, (Z.abs z <= 2 ^ 53)%Z -> generic_format radix2 fx (IZR z).
Proof.
  intros z H. change fx with (FLT_exp (-1074) 53). apply generic_format_FLT.
  destruct (Z.eq_dec (Z.abs z) (2 ^ 53)) as [E|E].
  - exists (Float radix2 (Z.sgn z) 53); cbn [Fnum Fexp]; [|destruct z; reflexivity|lia].
    unfold F2R. cbn [Fnum Fexp]. change (bpow radix2 53) with (IZR (2 ^ 53)). rewrite <- mult_IZR. f_equal. lia.
  - exists (Float radix2 z 0); cbn [Fnum Fexp]; [|change (radix2 ^ 53)%Z with (2 ^ 53)%Z; lia|lia].
    unfold F2R. cbn. ring.
Qed.
Theorem int_exact : forall z, (Z.abs z <= 2 ^ 53)%Z -> fin (ofZ z) /\ val (ofZ z) = IZR z.
Proof.
  intros z H. pose proof (binary_normalize_correct 53 1024 _ _ mode_NE z 0 false) as K. cbv zeta in K.
  replace (F2R (Float radix2 z 0)) with (IZR z) in K by (unfold F2R; cbn; ring).
  rewrite (round_generic radix2 fx (round_mode mode_NE) (IZR z) (int_format z H)) in K.
  rewrite Rlt_bool_true in K.
  - destruct K as (A & B & _). split; [exact B|exact A].
  - rewrite <- abs_IZR. apply Rle_lt_trans with (IZR (2 ^ 53)); [apply IZR_le; exact H|].
    change (IZR (2 ^ 53)) with (bpow radix2 53). apply bpow_lt. lia.
Qed.
Lemma val_0 : val (ofZ 0) = 0.
Proof. reflexivity. Qed.
Lemma fin_0 : fin (ofZ 0).
Proof. reflexivity. Qed.
(** a root is never minus infinity *)
Lemma sqrt_not_minf : forall x : flt, osqrt x <> B754_infinity true.
Proof.
  intros x E. pose proof (Bsqrt_correct 53 1024 _ _ mode_NE x) as (_ & B & _). cbn [osqrt B64] in E. rewrite E in B.
  cbn in B. destruct x as [ | [] | | []]; cbn in B, E; discriminate.
Qed.

(** results that are not too large are finite *)
Definition huge : R := bpow radix2 1023.
Lemma rnd_huge : forall x, Rabs x <= huge -> Rabs (rnd x) < bpow radix2 1024.
Proof.
  intros x H. apply Rle_lt_trans with huge; [|apply bpow_lt; reflexivity].
  apply abs_round_le_generic; [apply FLT_exp_valid; reflexivity|apply valid_rnd_N| |exact H].
  change fx with (FLT_exp (-1074) 53). apply generic_format_bpow. unfold FLT_exp. cbn. lia.
Qed.
Lemma add_fin : forall x y : flt, fin x -> fin y -> Rabs (val x + val y) <= huge -> fin (oadd x y).
Proof.
  intros x y Fx Fy H. pose proof (Bplus_correct 53 1024 _ _ mode_NE x y Fx Fy) as K.
  rewrite Rlt_bool_true in K by (apply rnd_huge; exact H). destruct K as (_ & K & _). exact K.
Qed.
Lemma sub_fin : forall x y : flt, fin x -> fin y -> Rabs (val x - val y) <= huge -> fin (osub x y).
Proof.
  intros x y Fx Fy H. pose proof (Bminus_correct 53 1024 _ _ mode_NE x y Fx Fy) as K.
  rewrite Rlt_bool_true in K by (apply rnd_huge; exact H). destruct K as (_ & K & _). exact K.
Qed.
Lemma mul_fin : forall x y : flt, fin x -> fin y -> Rabs (val x * val y) <= huge -> fin (omul x y).
Proof.
  intros x y Fx Fy H. pose proof (Bmult_correct 53 1024 _ _ mode_NE x y) as K.
  rewrite Rlt_bool_true in K by (apply rnd_huge; exact H). destruct K as (_ & K & _). unfold fin in *. cbn [omul B64].
  rewrite K, Fx, Fy. reflexivity.
Qed.
Lemma div_fin : forall x y : flt, fin x -> val y <> 0 -> Rabs (val x / val y) <= huge -> fin (odiv x y).
Proof.
  intros x y Fx Zy H. pose proof (Bdiv_correct 53 1024 _ _ mode_NE x y Zy) as K.
  rewrite Rlt_bool_true in K by (apply rnd_huge; exact H). destruct K as (_ & K & _). unfold fin in *. cbn [odiv B64].
  rewrite K. exact Fx.
Qed.

(** doubling is exact, and so are sums and products with zero *)
Lemma twice_format : forall x : flt, generic_format radix2 fx (2 * val x).
Proof.
  intro x. pose proof (generic_format_B2R 53 1024 x) as H. change fx with (FLT_exp (-1074) 53) in *.
  apply FLT_format_generic in H; [|reflexivity]. destruct H as [[m e] E M L]. cbn [Fnum Fexp] in *. apply generic_format_FLT.
  exists (Float radix2 m (e + 1)); cbn [Fnum Fexp]; [|exact M|lia].
  rewrite E. unfold F2R. cbn [Fnum Fexp]. rewrite bpow_plus. change (bpow radix2 1) with 2. ring.
Qed.
Lemma mul_2 : forall x : flt, fin (omul (ofZ 2) x) -> val (omul (ofZ 2) x) = 2 * val x.
Proof.
  intros x F. pose proof (Bmult_correct 53 1024 _ _ mode_NE (ofZ 2) x) as H. destruct (int_exact 2 ltac:(lia)) as [_ E]. rewrite E in H.
  rewrite (round_generic radix2 fx (round_mode mode_NE) _ (twice_format x)) in H. cbn [omul B64] in *. destruct (Rlt_bool _ _).
  - destruct H as [H _]. exact H.
  - destruct (over_fin _ _ H F).
Qed.
Lemma mul_0 : forall x y : flt, fin (omul x y) -> val x * val y = 0 -> val (omul x y) = 0.
Proof.
  intros x y F E. pose proof (Bmult_correct 53 1024 _ _ mode_NE x y) as H. rewrite E, round_0 in H by apply valid_rnd_N. cbn [omul B64] in *. destruct (Rlt_bool _ _).
  - destruct H as [H _]. exact H.
  - destruct (over_fin _ _ H F).
Qed.
Lemma add_0 : forall x y : flt, fin (oadd x y) -> val y = 0 -> val (oadd x y) = val x.
Proof.
  intros x y F E. destruct (fin_add x y F) as [Fx Fy]. pose proof (Bplus_correct 53 1024 _ _ mode_NE x y Fx Fy) as H.
  rewrite E, Rplus_0_r, round_generic in H by (apply valid_rnd_N || apply generic_format_B2R). cbn [oadd B64] in *. destruct (Rlt_bool _ _).
  - destruct H as [H _]. exact H.
  - destruct H as [H _]. destruct (over_fin _ _ H F).
Qed.
Lemma sub_0 : forall x y : flt, fin (osub x y) -> val y = 0 -> val (osub x y) = val x.
Proof.
  intros x y F E. destruct (fin_sub x y F) as [Fx Fy]. pose proof (Bminus_correct 53 1024 _ _ mode_NE x y Fx Fy) as H.
  rewrite E, Rminus_0_r, round_generic in H by (apply valid_rnd_N || apply generic_format_B2R). cbn [osub B64] in *. destruct (Rlt_bool _ _).
  - destruct H as [H _]. exact H.
  - destruct H as [H _]. destruct (over_fin _ _ H F).
Qed.
Lemma fin_val_0 : forall x y : flt, fin x -> fin y -> val y = 0 -> fin (omul x y).
Proof. intros x y Fx Fy E. apply mul_fin; [exact Fx|exact Fy|]. rewrite E, Rmult_0_r, Rabs_R0. apply bpow_ge_0. Qed.
