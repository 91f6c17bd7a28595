(** The invariants of src/homogenize.cpp:65-88 and the superposition of the linear path. *)
From Coq Require Import Reals Lra.
From Verif Require Import Base Scalar EllSpec EllModel AssemblyModel AsmPure MicroModel OutputModel NewtonBase ApiBase ApiRun ApiHist Build ApiSpec ApiProps AsmSpec FemGen ApiCases AsmCases.
Open Scope Z_scope.
Open Scope R_scope.

(** the symmetric 3x3 matrix of a Voigt list xx, yy, zz, xy, xz, yz *)
Definition sym3 (t : list R) (i j : Z) : R :=
  if (i =? j)%Z then lget t i else if ((i =? 0) || (j =? 0))%Z%bool then (if ((i =? 1) || (j =? 1))%Z%bool then lget t 3 else lget t 4) else lget t 5.
Definition trace3 (a : Z -> Z -> R) : R := rsum (zrange 0 3) (fun i => a i i).
Definition square3 (a : Z -> Z -> R) (i j : Z) : R := rsum (zrange 0 3) (fun k => a i k * a k j).
(** the second principal invariant *)
Definition second_invariant (a : Z -> Z -> R) : R := (trace3 a * trace3 a - trace3 (square3 a)) / 2.

Lemma inv1_trace V t : v_dim V = 3%Z -> get_inv_1 V t = Ok (trace3 (sym3 t)).
Proof. intros D. unfold get_inv_1. rewrite D. cbn [Z.eqb Pos.eqb]. f_equal. unfold trace3, sym3. cbn [zrange Z.sub Z.to_nat Pos.to_nat Pos.iter_op Init.Nat.add seq map rsum Z.of_nat]. change (zrange 0 3) with [0; 1; 2]%Z. cbn. lra. Qed.
Lemma inv2_off V t : v_dim V = 3%Z -> get_inv_2 V t = Some (second_invariant (sym3 t) + 2 * (lget t 3 * lget t 3 + lget t 4 * lget t 4 + lget t 5 * lget t 5)).
Proof.
  intros D. unfold get_inv_2. rewrite D. cbn [Z.eqb Pos.eqb]. f_equal. unfold second_invariant, trace3, square3, sym3. change (zrange 0 3) with [0; 1; 2]%Z. cbn. lra.
Qed.

Definition combined (n : Z) (a b : R) (e1 e2 e3 : list R) : Prop := forall i, (0 <= i < n)%Z -> lget e3 i = a * lget e1 i + b * lget e2 i.
Lemma predicted_sum o g : forall i, predicted o g i = rsum (zrange 0 (nvoi (o_env o))) (fun j => oval (o_ctan o) (i * nvoi (o_env o) + j) * oval (g_strain g) j).
Proof. intros i. unfold predicted. apply sumf_R. Qed.
Section Three.
Variables (o0 o1 o2 o3 : obj R) (cs1 cs2 cs3 : list (call R)) (fs1 fs2 fs3 : files R) (i1 i2 i3 : Z) (g1 g2 g3 : gp R) (e1 e2 e3 : list R) (a b : R).
Hypothesis O : is_object o0.
Hypothesis R1 : reaches o0 cs1 o1 fs1. Hypothesis R2 : reaches o0 cs2 o2 fs2. Hypothesis R3 : reaches o0 cs3 o3 fs3.
Hypothesis L1 : last_set i1 e1 cs1. Hypothesis L2 : last_set i2 e2 cs2. Hypothesis L3 : last_set i3 e3 cs3.
Hypothesis G1 : lookup i1 (o_gps o1) = Some g1. Hypothesis G2 : lookup i2 (o_gps o2) = Some g2. Hypothesis G3 : lookup i3 (o_gps o3) = Some g3.
Hypothesis C : combined (nvoi (o_env o0)) a b e1 e2 e3.
Lemma env_kept cs o fs : reaches o0 cs o fs -> o_env o = o_env o0 /\ o_ctan o = o_ctan o0.
Proof. intros R. destruct (reach_inv o0 cs o fs O R) as (_ & (E & D & _) & _). auto. Qed.
Lemma strain_kept cs o fs id g e : reaches o0 cs o fs -> last_set id e cs -> lookup id (o_gps o) = Some g -> forall i, (0 <= i < nvoi (o_env o0))%Z -> oval (g_strain g) i = lget e i.
Proof.
  intros R L G i Hi. destruct (env_kept _ _ _ R) as (E & _). destruct (keyed_store o0 cs o fs O R) as (_ & _ & _ & K). destruct (K id e L) as (g' & G' & S). rewrite G in G'. injection G' as <-.
  apply strain_is_stored in S. unfold oval. rewrite S; [reflexivity|]. now rewrite E.
Qed.
Lemma superpose i : predicted o3 g3 i = a * predicted o1 g1 i + b * predicted o2 g2 i.
Proof.
  rewrite !predicted_sum. destruct (env_kept _ _ _ R1) as (-> & ->), (env_kept _ _ _ R2) as (-> & ->), (env_kept _ _ _ R3) as (-> & ->).
  rewrite <- !rsum_scal, <- rsum_plus. apply rsum_ext. intros j Hj. apply in_zrange in Hj.
  rewrite (strain_kept _ _ _ _ _ _ R1 L1 G1 j Hj), (strain_kept _ _ _ _ _ _ R2 L2 G2 j Hj), (strain_kept _ _ _ _ _ _ R3 L3 G3 j Hj), (C j Hj). ring.
Qed.
Lemma superpose_below : Rabs a + Rabs b <= 1 -> below o1 g1 -> below o2 g2 -> below o3 g3.
Proof.
  intros H B1 B2. unfold below in *. destruct (env_kept _ _ _ R1) as (E1 & _), (env_kept _ _ _ R2) as (E2 & _), (env_kept _ _ _ R3) as (E3 & _).
  assert (T : predicted_trace o3 g3 = a * predicted_trace o1 g1 + b * predicted_trace o2 g2).
  { unfold predicted_trace. rewrite E1, E2, E3. destruct (v_dim (o_env o0) =? 2)%Z; rewrite !superpose; cbn [oadd ROps]; ring. }
  rewrite T, E3. rewrite E1 in B1. rewrite E2 in B2. cbn [oltb oabs ROps] in *. apply Rltb_true in B1, B2. apply Rltb_true.
  pose proof (Rabs_triang (a * predicted_trace o1 g1) (b * predicted_trace o2 g2)) as Q. rewrite !Rabs_mult in Q.
  pose proof (Rabs_pos a). pose proof (Rabs_pos b). pose proof (Rabs_pos (predicted_trace o1 g1)). pose proof (Rabs_pos (predicted_trace o2 g2)).
  set (x := Rabs a) in *. set (y := Rabs b) in *. set (t1 := Rabs (predicted_trace o1 g1)) in *. set (t2 := Rabs (predicted_trace o2 g2)) in *.
  assert (M : exists m, t1 <= m /\ t2 <= m /\ 0 <= m < v_inv_tol (o_env o0)) by (destruct (Rle_dec t1 t2); [exists t2|exists t1]; lra).
  destruct M as (m & M1 & M2 & M3). assert (x * t1 <= x * m) by nra. assert (y * t2 <= y * m) by nra. assert ((x + y) * m <= 1 * m) by nra. lra.
Qed.
(** the replies after homogenize *)
Theorem superposition f1 q1 o1' fs1' r1 f2 q2 o2' fs2' r2 f3 q3 o3' fs3' r3 :
  step (Homogenize f1 q1) (o1, fs1) = Ok (o1', fs1', r1) -> step (Homogenize f2 q2) (o2, fs2) = Ok (o2', fs2', r2) -> step (Homogenize f3 q3) (o3, fs3) = Ok (o3', fs3', r3) ->
  g_n g1 = None -> g_n g2 = None -> g_n g3 = None -> below o1 g1 -> below o2 g2 -> below o3 g3 ->
  exists s1 s2 s3, step (GetStress i1) (o1', fs1') = Ok (o1', fs1', RBuf (Some s1)) /\ step (GetStress i2) (o2', fs2') = Ok (o2', fs2', RBuf (Some s2)) /\
    step (GetStress i3) (o3', fs3') = Ok (o3', fs3', RBuf (Some s3)) /\
    Z.of_nat (length s1) = nvoi (o_env o0) /\ Z.of_nat (length s2) = nvoi (o_env o0) /\ Z.of_nat (length s3) = nvoi (o_env o0) /\ combined (nvoi (o_env o0)) a b s1 s2 s3.
Proof.
  intros S1 S2 S3 N1 N2 N3 B1 B2 B3. destruct (env_kept _ _ _ R1) as (E1 & _), (env_kept _ _ _ R2) as (E2 & _), (env_kept _ _ _ R3) as (E3 & _).
  destruct (linear_point _ _ _ _ _ _ _ _ _ _ _ O R1 S1 G1 N1 B1) as (Q1 & _). destruct (linear_point _ _ _ _ _ _ _ _ _ _ _ O R2 S2 G2 N2 B2) as (Q2 & _). destruct (linear_point _ _ _ _ _ _ _ _ _ _ _ O R3 S3 G3 N3 B3) as (Q3 & _).
  rewrite E1 in Q1. rewrite E2 in Q2. rewrite E3 in Q3. eexists _, _, _. split; [exact Q1|]. split; [exact Q2|]. split; [exact Q3|].
  assert (P : (0 <= nvoi (o_env o0))%Z) by (unfold nvoi; destruct (_ =? _)%Z; lia). rewrite !map_length, length_zrange, Z2Nat.id by lia. split; [lia|]. split; [lia|]. split; [lia|].
  intros i Hi. rewrite !lget_map by exact Hi. apply superpose.
Qed.
End Three.
(** the shear terms have the wrong sign *)
Lemma inv2_wrong : exists (V : env R) t x, v_dim V = 3%Z /\ get_inv_2 V t = Some x /\ x <> second_invariant (sym3 t).
Proof.
  exists blend3, [0; 0; 0; 1; 0; 0]. eexists. split; [apply blend3_body|]. split; [apply inv2_off, blend3_body|].
  change (lget [0; 0; 0; 1; 0; 0] 3) with 1. change (lget [0; 0; 0; 1; 0; 0] 4) with 0. change (lget [0; 0; 0; 1; 0; 0] 5) with 0. lra.
Qed.
Lemma inv2_exact V t : v_dim V = 3%Z -> (get_inv_2 V t = Some (second_invariant (sym3 t)) <-> lget t 3 = 0 /\ lget t 4 = 0 /\ lget t 5 = 0).
Proof.
  intros D. rewrite (inv2_off V t D). split.
  - intros [= H]. nra.
  - intros (-> & -> & ->). f_equal. ring.
Qed.
