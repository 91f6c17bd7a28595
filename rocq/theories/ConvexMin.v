(** Convex minimisation in finitely many real unknowns: cluster points of bounded nested sets,
    injective linear maps are bounded below, and a coercive convex function has a critical point. *)
From Coq Require Import Reals Lra Lia ZArith List Classical.
From Verif Require Import Base Scalar EllSpec EllProps CgPure FemGen FemMat FemDef FemPd.
Import ListNotations.
Open Scope Z_scope.
Open Scope R_scope.

Lemma abs_bound x b : Rabs x <= b -> - b <= x <= b.
Proof. intros H. unfold Rabs in H. destruct (Rcase_abs x); lra. Qed.
Lemma inv_small eps : 0 < eps -> exists k : nat, 1 / (INR k + 1) < eps.
Proof.
  intros H. destruct (archimed (1 / eps)) as (A & _). exists (Z.to_nat (up (1 / eps))).
  assert (P : 0 < 1 / eps) by (apply Rdiv_lt_0_compat; lra).
  assert (Q : (0 <= up (1 / eps))%Z) by (apply le_IZR; lra).
  rewrite INR_IZR_INZ, Z2Nat.id by assumption.
  apply (Rmult_lt_reg_r (IZR (up (1 / eps)) + 1)); [lra|]. unfold Rdiv at 1. rewrite Rmult_assoc, Rinv_l by lra.
  apply (Rmult_lt_reg_l (1 / eps)); [exact P|]. replace (1 / eps * (eps * (IZR (up (1 / eps)) + 1))) with (IZR (up (1 / eps)) + 1) by (field; lra). lra.
Qed.
Lemma inv_mono (k k' : nat) : (k <= k')%nat -> 0 < 1 / (INR k' + 1) <= 1 / (INR k + 1).
Proof.
  intros H. apply le_INR in H. pose proof (pos_INR k). split; [apply Rdiv_lt_0_compat; lra|].
  unfold Rdiv. rewrite !Rmult_1_l. apply Rinv_le_contravar; lra.
Qed.

Lemma cluster (I : list Z) (B : R) : forall A : nat -> (Z -> R) -> Prop,
  (forall k x, A (S k) x -> A k x) -> (forall k, exists x, A k x) -> (forall x r, A O x -> In r I -> Rabs (x r) <= B) ->
  exists l : Z -> R, forall k eps, 0 < eps -> exists x, A k x /\ forall r, In r I -> Rabs (x r - l r) < eps.
Proof.
  induction I as [|a I IH]; intros A Dec Ne Bd.
  - exists (fun _ => 0). intros k eps _. destruct (Ne k) as (x & Hx). exists x. split; [exact Hx|]. intros r [].
  - assert (Dec' : forall k k' x, (k <= k')%nat -> A k' x -> A k x).
    { intros k k' x H. induction H; [tauto|]. intros Q. apply IHle. now apply Dec. }
    assert (Ba : forall k x, A k x -> - B <= x a <= B).
    { intros k x Hx. assert (H0 : A O x) by (apply (Dec' O k); [lia|exact Hx]).
      specialize (Bd x a H0 (or_introl eq_refl)). now apply abs_bound in Bd. }
    set (E := fun t => forall k, exists x, A k x /\ t <= x a).
    destruct (completeness E) as (L & HL).
    { exists B. intros t Ht. destruct (Ht O) as (x & Hx & H). specialize (Ba O x Hx). lra. }
    { exists (- B). intros k. destruct (Ne k) as (x & Hx). exists x. split; [exact Hx|]. specialize (Ba k x Hx). lra. }
    destruct HL as (Up & Low).
    assert (Near : forall k eps, 0 < eps -> exists x, A k x /\ Rabs (x a - L) < eps).
    { intros k eps He.
      assert (NE : ~ E (L + eps / 2)) by (intros Q; specialize (Up _ Q); lra).
      apply not_all_ex_not in NE. destruct NE as (k0 & Hk0).
      assert (F : exists t, E t /\ L - eps < t).
      { apply NNPP. intros N. assert (L <= L - eps); [|lra]. apply Low. intros t Ht.
        destruct (Rle_dec t (L - eps)) as [c|c]; [exact c|]. exfalso. apply N. exists t. split; [exact Ht|lra]. }
      destruct F as (t & Ft & Lt). destruct (Ft (Nat.max k k0)) as (x & Hx & Xt). exists x.
      split; [apply (Dec' k (Nat.max k k0)); [lia|exact Hx]|].
      assert (x a < L + eps / 2).
      { apply Rnot_le_lt. intros Q. apply Hk0. exists x. split; [|exact Q]. apply (Dec' k0 (Nat.max k k0)); [lia|exact Hx]. }
      apply Rabs_def1; lra. }
    set (A' := fun k x => A k x /\ Rabs (x a - L) < 1 / (INR k + 1)).
    destruct (IH A') as (l & Hl).
    { intros k x (H1 & H2). split; [now apply Dec|]. pose proof (inv_mono k (S k) ltac:(lia)). lra. }
    { intros k. apply Near. pose proof (inv_mono k k ltac:(lia)). lra. }
    { intros x r (H1 & _) Hr. apply Bd; [exact H1|now right]. }
    exists (fun r => if (r =? a)%Z then L else l r). intros k eps He.
    destruct (inv_small eps He) as (k1 & Hk1). destruct (Hl (Nat.max k k1) eps He) as (x & (Hx1 & Hx2) & Hx3). exists x.
    split; [apply (Dec' k (Nat.max k k1)); [lia|exact Hx1]|].
    pose proof (inv_mono k1 (Nat.max k k1) ltac:(lia)).
    intros r Hr. destruct (Z.eqb_spec r a) as [->|n]; [lra|]. destruct Hr as [->|Hr]; [now contradiction n|now apply Hx3].
Qed.

(** largest entry *)
Lemma has_max (I : list Z) (x : Z -> R) : (forall r, In r I -> x r = 0) \/
  exists r0, In r0 I /\ 0 < Rabs (x r0) /\ forall r, In r I -> Rabs (x r) <= Rabs (x r0).
Proof.
  induction I as [|a I [IH|(r0 & H1 & H2 & H3)]].
  - left. intros r [].
  - destruct (Req_dec (x a) 0) as [Z0|N0].
    + left. intros r [<-|Hr]; auto.
    + right. exists a. split; [now left|]. pose proof (Rabs_pos_lt _ N0). split; [assumption|].
      intros r [<-|Hr]; [lra|]. rewrite (IH r Hr), Rabs_R0. lra.
  - right. destruct (Rle_dec (Rabs (x a)) (Rabs (x r0))) as [c|c].
    + exists r0. split; [now right|]. split; [exact H2|]. intros r [<-|Hr]; auto.
    + exists a. split; [now left|]. split; [lra|]. intros r [<-|Hr]; [lra|]. specialize (H3 r Hr). lra.
Qed.

Section Bounded.
Context {J : Type}.
Variables (I : list Z) (L : list J) (phi : J -> (Z -> R) -> R).
Hypothesis Hom : forall j c x, phi j (fun r => c * x r) = c * phi j x.
Hypothesis Lip : forall j, In j L -> exists s, 0 <= s /\ forall x y d, 0 <= d -> (forall r, In r I -> Rabs (x r - y r) <= d) -> Rabs (phi j x - phi j y) <= s * d.
Hypothesis Inj : forall x, (forall j, In j L -> phi j x = 0) -> forall r, In r I -> x r = 0.
Lemma bounded_below : exists K, 0 <= K /\ forall x M, (forall j, In j L -> Rabs (phi j x) <= M) -> 0 <= M -> forall r, In r I -> Rabs (x r) <= K * M.
Proof.
  set (unit_vec := fun x : Z -> R => (forall r, In r I -> Rabs (x r) <= 1) /\ exists r, In r I /\ Rabs (x r) = 1).
  assert (Q : exists k : nat, forall x, unit_vec x -> exists j, In j L /\ 1 / (INR k + 1) < Rabs (phi j x)).
  { apply NNPP. intros N.
    assert (W : forall k : nat, exists x, unit_vec x /\ forall j, In j L -> Rabs (phi j x) <= 1 / (INR k + 1)).
    { intros k. apply NNPP. intros Nk. apply N. exists k. intros x Hx. apply NNPP. intros Nj. apply Nk. exists x. split; [exact Hx|].
      intros j Hj. apply Rnot_lt_le. intros C. apply Nj. now exists j. }
    destruct (cluster I 1 (fun k x => unit_vec x /\ forall j, In j L -> Rabs (phi j x) <= 1 / (INR k + 1))) as (l & Hl).
    - intros k x (H1 & H2). split; [exact H1|]. intros j Hj. specialize (H2 j Hj). pose proof (inv_mono k (S k) ltac:(lia)). lra.
    - exact W.
    - intros x r ((H & _) & _) Hr. now apply H.
    - assert (Z0 : forall j, In j L -> phi j l = 0).
      { intros j Hj. destruct (Lip j Hj) as (s & Hs & Lj). apply NNPP. intros C. apply Rabs_pos_lt in C.
        set (p := Rabs (phi j l)) in *. destruct (inv_small (p / 2)) as (k & Hk); [lra|].
        destruct (Hl k (p / 2 / (s + 1))) as (x & (_ & Hx) & Nx); [apply Rdiv_lt_0_compat; lra|].
        assert (T : Rabs (phi j l - phi j x) <= s * (p / 2 / (s + 1))).
        { apply Lj; [left; apply Rdiv_lt_0_compat; lra|]. intros r Hr. specialize (Nx r Hr). rewrite Rabs_minus_sym. lra. }
        specialize (Hx j Hj).
        assert (U : s * (p / 2 / (s + 1)) <= p / 2).
        { replace (s * (p / 2 / (s + 1))) with (p / 2 * (s / (s + 1))) by (field; lra).
          rewrite <- (Rmult_1_r (p / 2)) at 2. apply Rmult_le_compat_l; [lra|].
          apply (Rmult_le_reg_r (s + 1)); [lra|]. unfold Rdiv. rewrite Rmult_assoc, Rinv_l by lra. lra. }
        pose proof (Rabs_triang_inv (phi j l) (phi j x)). fold p in H. lra. }
      destruct (Hl O (1 / 2)) as (x & ((_ & r & Hr & Er) & _) & Nx); [lra|].
      specialize (Nx r Hr). rewrite (Inj l Z0 r Hr), Rminus_0_r, Er in Nx. lra. }
  destruct Q as (k & Hk). pose proof (pos_INR k). exists (INR k + 1). split; [lra|]. intros x M HM M0 r Hr.
  destruct (has_max I x) as [Z0|(r0 & H1 & H2 & H3)].
  - rewrite (Z0 r Hr), Rabs_R0. apply Rmult_le_pos; lra.
  - set (N := Rabs (x r0)) in *. assert (IN : 0 < / N) by now apply Rinv_0_lt_compat.
    destruct (Hk (fun i => / N * x i)) as (j & Hj & Pj).
    { split.
      - intros i Hi. rewrite Rabs_mult, (Rabs_right (/ N)) by lra. specialize (H3 i Hi).
        apply (Rmult_le_reg_l N); [exact H2|]. rewrite <- Rmult_assoc, Rinv_r by lra. lra.
      - exists r0. split; [exact H1|]. rewrite Rabs_mult, (Rabs_right (/ N)) by lra. fold N. now rewrite Rinv_l by lra. }
    rewrite Hom, Rabs_mult, (Rabs_right (/ N)) in Pj by lra. specialize (HM j Hj).
    eapply Rle_trans; [now apply H3|]. fold N.
    apply (Rmult_le_reg_l (/ N * (1 / (INR k + 1)))).
    { apply Rmult_lt_0_compat; [exact IN|]. apply Rdiv_lt_0_compat; lra. }
    replace (/ N * (1 / (INR k + 1)) * N) with (1 / (INR k + 1)) by (field; lra).
    replace (/ N * (1 / (INR k + 1)) * ((INR k + 1) * M)) with (/ N * M) by (field; lra).
    pose proof (Rmult_le_compat_l (/ N) _ _ ltac:(lra) HM). lra.
Qed.
End Bounded.

Lemma rsum_abs_le (I : list Z) (f g : Z -> R) B : (forall r, In r I -> Rabs (g r) <= B) -> Rabs (rsum I (fun r => f r * g r)) <= rsum I (fun r => Rabs (f r)) * B.
Proof.
  induction I as [|a l IH]; intros H; cbn [rsum].
  - rewrite Rabs_R0. lra.
  - eapply Rle_trans; [apply Rabs_triang|]. rewrite Rabs_mult, Rmult_plus_distr_r. apply Rplus_le_compat.
    + apply Rmult_le_compat_l; [apply Rabs_pos|apply H; now left].
    + apply IH. intros; apply H; now right.
Qed.

Section Minimum.
Variables (I : list Z) (P : (Z -> R) -> R) (F : (Z -> R) -> Z -> R).
Let ip (f g : Z -> R) : R := rsum I (fun r => f r * g r).
Hypothesis Sub : forall x y, P x + ip (F x) (fun r => y r - x r) <= P y.
Lemma minimum_critical x : (forall d eps, 0 < eps -> exists t, 0 < t /\ Rabs (ip (F (fun r => x r + t * d r)) d - ip (F x) d) < eps) ->
  (forall y, P x <= P y) -> forall r, In r I -> F x r = 0.
Proof.
  intros Cont Min. set (d := fun r => - F x r).
  assert (N : 0 <= ip (F x) d).
  { apply Rnot_lt_le. intros C. destruct (Cont d (- ip (F x) d)) as (t & Ht & Nt); [lra|].
    assert (0 <= ip (F (fun r => x r + t * d r)) d).
    { pose proof (Sub (fun r => x r + t * d r) x) as S1. pose proof (Min (fun r => x r + t * d r)) as S2.
      assert (E : ip (F (fun r => x r + t * d r)) (fun r => x r - (x r + t * d r)) = - (t * ip (F (fun r => x r + t * d r)) d)).
      { unfold ip. rewrite <- rsum_scal. replace (- rsum I (fun a => t * (F (fun r => x r + t * d r) a * d a))) with (-1 * rsum I (fun a => t * (F (fun r => x r + t * d r) a * d a))) by ring.
        rewrite <- rsum_scal. apply rsum_ext. intros r _. ring. }
      cbv beta in S1. rewrite E in S1. assert (0 <= t * ip (F (fun r => x r + t * d r)) d) by lra.
      apply (Rmult_le_reg_l t); [exact Ht|]. lra. }
    apply Rabs_def2 in Nt. lra. }
  assert (Sq : ip (F x) d = - rsum I (fun r => F x r * F x r)).
  { unfold ip, d. replace (- rsum I (fun r => F x r * F x r)) with (-1 * rsum I (fun r => F x r * F x r)) by ring. rewrite <- rsum_scal. apply rsum_ext. intros; ring. }
  intros r Hr. apply Rsqr_0_uniq.
  pose proof (rsum_all0 I (fun r => F x r * F x r)) as Z0. cbv beta in Z0. unfold Rsqr. apply Z0; [intros; apply Rle_0_sqr| |exact Hr].
  apply Rle_antisym; [lra|]. apply rsum_nonneg. intros; apply Rle_0_sqr.
Qed.
Hypothesis Coercive : exists B, forall x, P x <= P (fun _ => 0) + 1 -> forall r, In r I -> Rabs (x r) <= B.
Lemma minimum_exists : exists x, forall y, P x <= P y.
Proof.
  destruct Coercive as (B & HB). set (p0 := P (fun _ => 0)) in *. set (f0 := rsum I (fun r => Rabs (F (fun _ => 0) r))).
  assert (Bl : forall y, P y <= p0 + 1 -> p0 - f0 * B <= P y).
  { intros y Hy. pose proof (Sub (fun _ => 0) y) as S1. fold p0 in S1.
    assert (A : Rabs (ip (F (fun _ => 0)) (fun r => y r - 0)) <= f0 * B).
    { apply (rsum_abs_le I (F (fun _ => 0)) (fun r => y r - 0)). intros r Hr. rewrite Rminus_0_r. now apply HB. }
    apply abs_bound in A. lra. }
  destruct (completeness (fun t => exists y, P y <= p0 + 1 /\ t = - P y)) as (s & Up & Low).
  { exists (- (p0 - f0 * B)). intros t (y & Hy & ->). specialize (Bl y Hy). lra. }
  { exists (- p0). exists (fun _ => 0). split; [fold p0; lra|reflexivity]. }
  set (m := - s).
  assert (Mn : forall y, m <= P y).
  { intros y. destruct (Rle_dec (P y) (p0 + 1)) as [c|c].
    - assert (- P y <= s) by (apply Up; exists y; split; [exact c|reflexivity]). unfold m. lra.
    - assert (- p0 <= s) by (apply Up; exists (fun _ => 0); split; [fold p0; lra|reflexivity]). unfold m. lra. }
  assert (Ap : forall k : nat, exists y, P y <= p0 + 1 /\ P y <= m + 1 / (INR k + 1)).
  { intros k. pose proof (inv_mono k k ltac:(lia)) as (Hk & _). apply NNPP. intros N.
    assert (s <= s - 1 / (INR k + 1)); [|lra]. apply Low. intros t (y & Hy & ->).
    apply Rnot_lt_le. intros C. apply N. exists y. split; [exact Hy|]. unfold m. lra. }
  destruct (cluster I B (fun k y => P y <= p0 + 1 /\ P y <= m + 1 / (INR k + 1))) as (l & Hl).
  { intros k x (H1 & H2). split; [exact H1|]. pose proof (inv_mono k (S k) ltac:(lia)). lra. }
  { exact Ap. }
  { intros x r (H1 & _) Hr. now apply HB. }
  exists l. intros y. eapply Rle_trans; [|apply Mn]. apply Rnot_lt_le. intros C.
  set (g := P l - m). assert (Hg : 0 < g) by (unfold g; lra).
  set (fl := rsum I (fun r => Rabs (F l r))). assert (Hf : 0 <= fl) by (apply rsum_nonneg; intros; apply Rabs_pos).
  destruct (inv_small (g / 2)) as (k & Hk); [lra|].
  destruct (Hl k (g / 2 / (fl + 1))) as (x & (_ & Hx) & Nx); [apply Rdiv_lt_0_compat; lra|].
  pose proof (Sub l x) as S1.
  assert (A : Rabs (ip (F l) (fun r => x r - l r)) <= fl * (g / 2 / (fl + 1))).
  { apply (rsum_abs_le I (F l) (fun r => x r - l r)). intros r Hr. specialize (Nx r Hr). lra. }
  assert (U : fl * (g / 2 / (fl + 1)) <= g / 2).
  { replace (fl * (g / 2 / (fl + 1))) with (g / 2 * (fl / (fl + 1))) by (field; lra).
    rewrite <- (Rmult_1_r (g / 2)) at 2. apply Rmult_le_compat_l; [lra|].
    apply (Rmult_le_reg_r (fl + 1)); [lra|]. unfold Rdiv. rewrite Rmult_assoc, Rinv_l by lra. lra. }
  apply abs_bound in A. unfold g in *. lra.
Qed.
Lemma convex_ray x t : 0 < t <= 1 -> P (fun r => t * x r) <= (1 - t) * P (fun _ => 0) + t * P x.
Proof.
  intros Ht. set (y := fun r => t * x r). pose proof (Sub y (fun _ => 0)) as S0. pose proof (Sub y x) as S1. cbv beta in S0, S1.
  assert (E0 : ip (F y) (fun r => 0 - y r) = - t * ip (F y) x) by (unfold ip; rewrite <- rsum_scal; apply rsum_ext; intros; unfold y; ring).
  assert (E1 : ip (F y) (fun r => x r - y r) = (1 - t) * ip (F y) x) by (unfold ip; rewrite <- rsum_scal; apply rsum_ext; intros; unfold y; ring).
  rewrite E0 in S0. rewrite E1 in S1.
  apply (Rmult_le_compat_l (1 - t)) in S0; [|lra]. apply (Rmult_le_compat_l t) in S1; [|lra]. lra.
Qed.
Lemma near_bounded : exists D d, 0 <= D /\ 0 < d /\ forall x n, 0 <= n <= d -> P x <= P (fun _ => 0) + n * rsum I (fun r => Rabs (x r)) -> forall r, In r I -> Rabs (x r) <= D.
Proof.
  destruct Coercive as (B & HB). set (D := Rabs B + 1). pose proof (Rabs_pos B) as B0. pose proof (Rle_abs B) as B1.
  set (N := rsum I (fun _ => 1)). assert (N0 : 0 <= N) by (apply rsum_nonneg; intros; lra). assert (D0 : 0 < D) by (unfold D; lra).
  exists D, (/ (2 * ((N + 1) * D))). assert (ND : 0 < 2 * ((N + 1) * D)) by (apply Rmult_lt_0_compat; [lra|apply Rmult_lt_0_compat; lra]).
  split; [lra|]. split; [now apply Rinv_0_lt_compat|]. intros x n (n0 & Hn) Hx r Hr.
  destruct (has_max I x) as [Z0|(r0 & H1 & H2 & H3)]; [rewrite Z0, Rabs_R0 by assumption; lra|].
  eapply Rle_trans; [now apply H3|]. apply Rnot_lt_le. intros C. set (L := Rabs (x r0)) in *.
  set (t := D / L). assert (L0 : 0 < L) by lra. assert (T0 : 0 < t) by now apply Rdiv_lt_0_compat.
  assert (TL : t * L = D) by (unfold t; field; lra).
  assert (T1 : t <= 1) by (apply (Rmult_le_reg_r L); lra).
  pose proof (convex_ray x t (conj T0 T1)) as Cv.
  assert (Big : P (fun _ => 0) + 1 < P (fun r => t * x r)).
  { apply Rnot_le_lt. intros G. specialize (HB _ G r0 H1). cbv beta in HB. rewrite Rabs_mult, (Rabs_pos_eq t) in HB by lra. fold L in HB. unfold D in TL. lra. }
  assert (Sm : rsum I (fun r => Rabs (x r)) <= N * L).
  { unfold N. pose proof (rsum_abs_le I (fun _ => 1) (fun r => Rabs (x r)) L) as A. cbv beta in A. rewrite (rsum_ext I (fun r => 1 * Rabs (x r)) (fun r => Rabs (x r))) in A by (intros; ring).
    rewrite (rsum_ext I (fun _ => Rabs 1) (fun _ => 1)) in A by (intros; apply Rabs_R1). eapply Rle_trans; [apply Rle_abs|]. apply A. intros q Hq. rewrite Rabs_Rabsolu. now apply H3. }
  assert (Up : P x <= P (fun _ => 0) + n * (N * L)) by (assert (n * rsum I (fun r => Rabs (x r)) <= n * (N * L)) by (apply Rmult_le_compat_l; lra); lra).
  assert (Q : 1 < t * (n * (N * L))).
  { apply (Rmult_le_compat_l t) in Up; [|lra]. lra. }
  replace (t * (n * (N * L))) with (n * (N * D)) in Q by (rewrite <- TL; ring).
  assert (n * (2 * ((N + 1) * D)) <= 1).
  { apply (Rmult_le_compat_r (2 * ((N + 1) * D))) in Hn; [|lra]. rewrite Rinv_l in Hn by lra. exact Hn. }
  assert (0 <= n * (N * D)) by (apply Rmult_le_pos; [lra|apply Rmult_le_pos; lra]). assert (0 <= n * D) by (apply Rmult_le_pos; lra). lra.
Qed.
End Minimum.
