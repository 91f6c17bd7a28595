(** Rounding errors of the strains, stresses, averages and residuals of a body in doubles. *)
From Coq Require Import Reals Lra ZifyBool ZifyNat.
From Flocq Require Import BinarySingleNaN.
From Verif Require Import Base Scalar MonoBody ConvexMin EllSpec EllInit EllModel EllAsm Grid AssemblyModel AsmPure AsmBnd AsmRun FemGen FemAve FemRhs BinInst FloatSum FloatCg FloatFem.
Open Scope Z_scope.

(** ** A degree of freedom gets at most one contribution per corner *)
Lemma nodup_app {A} (l m : list A) : NoDup l -> NoDup m -> (forall x, In x l -> In x m -> False) -> NoDup (l ++ m).
Proof.
  intros L M D. induction L as [|a l N L IH]; [exact M|]. cbn [app]. constructor.
  - rewrite in_app_iff. intros [I|I]; [exact (N I)|exact (D a (or_introl eq_refl) I)].
  - apply IH. intros x Hx Hm. exact (D x (or_intror Hx) Hm).
Qed.
Lemma nodup_flat {A B} (f : A -> list B) (p : B -> A) l : NoDup l -> (forall a, NoDup (f a)) -> (forall a b, In b (f a) -> p b = a) -> NoDup (flat_map f l).
Proof.
  intros L F P. induction L as [|a l N L IH]; [constructor|]. cbn [flat_map]. apply nodup_app; [apply F|exact IH|].
  intros x Hx Hy. apply in_flat_map in Hy. destruct Hy as (b & Hb & Hy). apply P in Hx, Hy. congruence.
Qed.
Lemma els3_nodup {T} (V : env T) : NoDup (els3 V).
Proof.
  unfold els3. apply nodup_flat with (p := fun e => fst (fst e)); [apply NoDup_zrange| |].
  - intro ex. apply nodup_flat with (p := fun e => snd (fst e)); [apply NoDup_zrange| |].
    + intro ey. apply NoDup_map_inj; [intros a b _ _ [= E]; exact E|apply NoDup_zrange].
    + intros ey e He. apply in_map_iff in He. destruct He as (ez & <- & _). reflexivity.
  - intros ex e He. apply in_flat_map in He. destruct He as (ey & _ & He). apply in_map_iff in He. destruct He as (ez & <- & _). reflexivity.
Qed.
Lemma els2_nodup {T} (V : env T) : NoDup (els2 V).
Proof.
  unfold els2. apply nodup_flat with (p := fst); [apply NoDup_zrange| |].
  - intro ex. apply NoDup_map_inj; [intros a b _ _ [= E]; exact E|apply NoDup_zrange].
  - intros ex e He. apply in_map_iff in He. destruct He as (ey & <- & _). reflexivity.
Qed.
Lemma filter_flat {A B} (p : B -> bool) (f : A -> list B) l : filter p (flat_map f l) = flat_map (fun a => filter p (f a)) l.
Proof. induction l as [|a l IH]; [reflexivity|]. cbn [flat_map]. now rewrite filter_app, IH. Qed.
Lemma filter_map_len {A B} (p : B -> bool) (f : A -> B) l : length (filter p (map f l)) = length (filter (fun a => p (f a)) l).
Proof. induction l as [|a l IH]; [reflexivity|]. cbn [map filter]. destruct (p (f a)); cbn [length]; now rewrite IH. Qed.

(** contributions indexed by a cell and a local dof; the corner tells the two apart *)
Lemma adds_count {T A} (els : list A) (c : A -> Z -> Z) (x : A -> Z -> T) n d a : NoDup els -> 0 < d ->
  (forall e e' i i', In e els -> In e' els -> 0 <= i < n * d -> 0 <= i' < n * d -> i / d = i' / d -> c e (i / d) = c e' (i' / d) -> e = e') ->
  (length (deltas (flat_map (fun e => map (fun i => (c e (i / d) * d + i mod d, x e i)) (zrange 0 (n * d))) els)%Z a) <= Z.to_nat n)%nat.
Proof.
  intros Nd Pd Inj. unfold deltas. rewrite map_length.
  set (ps := flat_map (fun e => map (fun i => (e, i)) (zrange 0 (n * d))) els).
  assert (E : flat_map (fun e => map (fun i => (c e (i / d) * d + i mod d, x e i)) (zrange 0 (n * d))) els =
              map (fun p => (c (fst p) (snd p / d) * d + snd p mod d, x (fst p) (snd p))) ps).
  { unfold ps. clear Nd Inj ps. induction els as [|e els IH]; [reflexivity|]. cbn [flat_map]. rewrite map_app, <- IH, map_map. reflexivity. }
  rewrite E, filter_map_len. set (q := filter _ ps).
  assert (Nq : NoDup q).
  { apply NoDup_filter. unfold ps. apply nodup_flat with (p := fst); [exact Nd| |].
    - intro e. apply NoDup_map_inj; [intros i j _ _ [= K]; exact K|apply NoDup_zrange].
    - intros e p Hp. apply in_map_iff in Hp. destruct Hp as (i & <- & _). reflexivity. }
  assert (Iq : forall p, In p q -> In (fst p) els /\ 0 <= snd p < n * d /\ c (fst p) (snd p / d) * d + snd p mod d = a).
  { intros p Hp. apply filter_In in Hp. destruct Hp as [Hp Ha]. cbn [fst] in Ha. apply Z.eqb_eq in Ha. unfold ps in Hp. apply in_flat_map in Hp. destruct Hp as (e & He & Hp).
    apply in_map_iff in Hp. destruct Hp as (i & <- & Hi). apply in_zrange in Hi. auto. }
  assert (Nm : NoDup (map (fun p => snd p / d) q)).
  { apply NoDup_map_inj; [|exact Nq]. intros p p' Hp Hp' K. apply Iq in Hp, Hp'. destruct Hp as (P1 & P2 & P3), Hp' as (Q1 & Q2 & Q3).
    assert (M : snd p mod d = snd p' mod d /\ c (fst p) (snd p / d) = c (fst p') (snd p' / d)).
    { pose proof (Z.mod_pos_bound (snd p) d Pd). pose proof (Z.mod_pos_bound (snd p') d Pd). rewrite <- Q3 in P3. clear - P3 H H0 Pd.
      assert (c (fst p) (snd p / d) = c (fst p') (snd p' / d)) by nia. split; [|assumption]. rewrite H1 in P3. lia. }
    destruct M as [M C]. pose proof (Inj _ _ _ _ P1 Q1 P2 Q2 K C) as Ee.
    assert (snd p = snd p') by (rewrite (Z.div_mod (snd p) d), (Z.div_mod (snd p') d) by lia; rewrite K, M; reflexivity).
    destruct p, p'. cbn [fst snd] in *. congruence. }
  rewrite <- (map_length (fun p => snd p / d)). replace (Z.to_nat n) with (length (zrange 0 n)) by (rewrite length_zrange; f_equal; lia).
  apply NoDup_incl_length; [exact Nm|]. intros z Hz. apply in_map_iff in Hz. destruct Hz as (p & <- & Hp). apply Iq in Hp. destruct Hp as (_ & Hp & _).
  apply in_zrange. split; [apply Z.div_pos; lia|apply Z.div_lt_upper_bound; lia].
Qed.
Lemma corners_count3 {T} `{Ops T} (V : env T) uf of a : (length (deltas (rhs_all3 V uf of) a) <= 8)%nat.
Proof.
  set (c := fun (e : Z * Z * Z) k => let '(ex, ey, ez) := e in corner3 (v_nx V) (v_ny V) ex ey ez k).
  assert (E : rhs_all3 V uf of = flat_map (fun e => map (fun i => (c e (i / 3) * 3 + i mod 3, lget (be3 V uf of e) i)) (zrange 0 (8 * 3))) (els3 V)).
  { unfold rhs_all3. apply flat_map_ext. intros [[ex ey] ez]. unfold rhs_adds. change (Z.of_nat (length _) * 3) with (8 * 3).
    apply map_ext_in. intros i Hi. apply in_zrange in Hi. rewrite sn3_corner by (Z.div_mod_to_equations; lia). reflexivity. }
  rewrite E. apply (adds_count (els3 V) c (fun e i => lget (be3 V uf of e) i) 8 3 a (els3_nodup V)); [lia|].
  intros [[ex ey] ez] [[fx fy] fz] i i' He Hf Hi Hi' K C. rewrite <- K in C. unfold c, corner3 in C. apply in_els3 in He, Hf.
  assert (B : 0 <= i / 3 < 8) by (Z.div_mod_to_equations; lia). destruct (cor_bound (i / 3) B) as (Bx & By & Bz).
  apply node_inj in C; try lia. destruct C as (C1 & C2 & C3). repeat f_equal; lia.
Qed.
Lemma corners_count2 {T} `{Ops T} (V : env T) uf a : (length (deltas (rhs_all2 V uf) a) <= 4)%nat.
Proof.
  set (c := fun (e : Z * Z) k => let '(ex, ey) := e in corner2 (v_nx V) (v_ny V) ex ey k).
  assert (E : rhs_all2 V uf = flat_map (fun e => map (fun i => (c e (i / 2) * 2 + i mod 2, lget (be2 V uf e) i)) (zrange 0 (4 * 2))) (els2 V)).
  { unfold rhs_all2. apply flat_map_ext. intros [ex ey]. unfold rhs_adds. change (Z.of_nat (length _) * 2) with (4 * 2).
    apply map_ext_in. intros i Hi. apply in_zrange in Hi. rewrite (sn2_corner _ (v_ny V)) by (Z.div_mod_to_equations; lia). reflexivity. }
  rewrite E. apply (adds_count (els2 V) c (fun e i => lget (be2 V uf e) i) 4 2 a (els2_nodup V)); [lia|].
  intros [ex ey] [fx fy] i i' He Hf Hi Hi' K C. rewrite <- K in C. unfold c, corner2 in C. apply in_els2 in He, Hf.
  assert (B : 0 <= i / 2 < 8) by (Z.div_mod_to_equations; lia). destruct (cor_bound (i / 2) B) as (Bx & By & Bz).
  apply node_inj in C; try lia. destruct C as (C1 & C2 & C3). f_equal; lia.
Qed.

Open Scope R_scope.
(** ** The same body in doubles and in exact arithmetic *)
Definition matc (Cs : R) (m : material flt) (m' : material R) : Prop :=
  cn 12 (m_lambda m) (m_lambda m') Cs /\ cn 12 (m_mu m) (m_mu m') (Cs / 2) /\
  forall i j, cn 16 (ctan2 (m_E m) (m_nu m) i j) (ctan2 (m_E m') (m_nu m') i j) (2 * Cs).
Record twin (V : env flt) (W : env R) (H Cs : R) : Prop := {
  tw_dim : v_dim W = v_dim V; tw_nx : v_nx W = v_nx V; tw_ny : v_ny W = v_ny V; tw_nz : v_nz W = v_nz V;
  tw_mat : forall e, (0 <= e < ncells V)%Z -> matc Cs (mat_at V e) (mat_at W e);
  tw_lin : v_dim V = 3%Z -> forall e, (0 <= e < ncells V)%Z -> m_plast (mat_at V e) = Some false /\ m_plast (mat_at W e) = Some false;
  tw_dx : cellsz (v_dx V) (v_dx W); tw_dy : cellsz (v_dy V) (v_dy W); tw_hx : / v_dx W <= H; tw_hy : / v_dy W <= H;
  tw_dz : v_dim V = 3%Z -> cellsz (v_dz V) (v_dz W) /\ / v_dz W <= H;
  tw_lx : rl 0 (v_lx V) (v_lx W); tw_ly : rl 0 (v_ly V) (v_ly W);
  tw_lx_r : p2 (-60) <= v_lx W <= p2 60; tw_ly_r : p2 (-60) <= v_ly W <= p2 60;
  tw_Cs : p2 (-100) <= Cs }.

Section Twin.
Variables (V : env flt) (W : env R) (H Cs U : R).
Hypothesis TW : twin V W H Cs.
Hypothesis HU : p2 (-100) <= U.
Variables (uf : Z -> flt) (vf : Z -> R).
Hypothesis Near : forall a, (0 <= a < v_nx V * v_ny V * v_nz V * v_dim V)%Z -> cn 12 (uf a) (vf a) U.
Notation E0 := (24 * (H * U)).
Notation S0 := (96 * (Cs * (H * U))).

Lemma tw_els3 : els3 W = els3 V.
Proof. unfold els3. now rewrite (tw_nx _ _ _ _ TW), (tw_ny _ _ _ _ TW), (tw_nz _ _ _ _ TW). Qed.
Lemma tw_els2 : els2 W = els2 V.
Proof. unfold els2. now rewrite (tw_nx _ _ _ _ TW), (tw_ny _ _ _ _ TW). Qed.
Lemma tw_ix3 e : ix3 W e = ix3 V e.
Proof. unfold ix3. now rewrite (tw_nx _ _ _ _ TW), (tw_ny _ _ _ _ TW). Qed.
Lemma tw_ix2 e : ix2 W e = ix2 V e.
Proof. unfold ix2. now rewrite (tw_nx _ _ _ _ TW), (tw_ny _ _ _ _ TW). Qed.
Lemma Hbig : p2 (-60) <= H.
Proof. exact (H_pos V W H (tw_dx _ _ _ _ TW) (tw_hx _ _ _ _ TW)). Qed.
Lemma HUbig : p2 (-160) <= H * U.
Proof. exact (p2_mul (-60) (-100) _ _ Hbig HU). Qed.
Lemma CHUbig : p2 (-260) <= Cs * (H * U).
Proof. exact (p2_mul (-100) (-160) _ _ (tw_Cs _ _ _ _ TW) HUbig). Qed.
Lemma pos_p2 e x : p2 e <= x -> 0 < x.
Proof. intro L. pose proof (Raux.bpow_gt_0 Zaux.radix2 e). lra. Qed.
Lemma E0_big : p2 (-160) <= E0.
Proof. pose proof HUbig as L. pose proof (pos_p2 _ _ L). lra. Qed.
Lemma S0_big : p2 (-260) <= S0.
Proof. pose proof CHUbig as L. pose proof (pos_p2 _ _ L). lra. Qed.
Lemma tiny_p2 e x : (-1022 <= e)%Z -> p2 e <= x -> tiny <= x.
Proof. intros K L. exact (p2_tiny e x L K). Qed.

Section Three.
Hypothesis D3 : v_dim V = 3%Z.
Lemma B3_cn g v i : (0 <= v < 6)%Z -> cn 18 (B3 V g v i) (B3 W g v i) H.
Proof.
  destruct (tw_dz _ _ _ _ TW D3) as [Dz Hz]. exact (cn_B3 V W H (tw_dx _ _ _ _ TW) (tw_dy _ _ _ _ TW) (tw_hx _ _ _ _ TW) (tw_hy _ _ _ _ TW) Dz Hz g v i).
Qed.
Lemma w3_rl : rl 14 (wg3 V) (wg3 W) /\ p2 (-276) <= wg3 W.
Proof.
  destruct (tw_dz _ _ _ _ TW D3) as [Dz Hz]. destruct (wg3_rl V W (tw_dx _ _ _ _ TW) (tw_dy _ _ _ _ TW) Dz) as (Q & L & _). auto.
Qed.
Lemma disp3_cn e i : In e (els3 V) -> (0 <= i < 24)%Z -> cn 12 (disp3 V uf e i) (disp3 W vf e i) U.
Proof.
  intros He Hi. destruct e as [[ex ey] ez]. apply in_els3 in He. unfold disp3. rewrite (tw_nx _ _ _ _ TW), (tw_ny _ _ _ _ TW). apply Near. rewrite D3.
  pose proof (corner3_range (v_nx V) (v_ny V) (v_nz V) ex ey ez (i / 3)) as R0. pose proof (Z.mod_pos_bound i 3).
  assert (0 <= i / 3 < 8)%Z by (Z.div_mod_to_equations; lia). lia.
Qed.
Lemma strain3_cn e g v : In e (els3 V) -> (0 <= v < 6)%Z -> cn 56 (lget (strain3 V uf e g) v) (lget (strain3 W vf e g) v) E0.
Proof.
  intros He Hv. unfold strain3.
  apply (cn_strain 6 24 12 (B3 V g) (B3 W g) _ _ H U v); [lia|exact Hv| | |apply (tiny_p2 (-160)); [lia|exact HUbig]].
  - intro i. apply B3_cn. exact Hv.
  - intros i Hi. rewrite !lget_ltab by assumption. now apply disp3_cn.
Qed.
Lemma sig3_cn oa ob e g v : In e (els3 V) -> (0 <= v < 6)%Z -> cn 73 (lget (sig3 V oa e g (strain3 V uf e g)) v) (lget (sig3 W ob e g (strain3 W vf e g)) v) S0.
Proof.
  intros He Hv. pose proof (ix3_range V e D3 He) as Rg. destruct (tw_mat _ _ _ _ TW _ Rg) as (Ml & Mm & _). destruct (tw_lin _ _ _ _ TW D3 _ Rg) as (P1 & P2).
  unfold sig3. rewrite tw_ix3. unfold plastic_at. rewrite P1, P2. unfold lin_stress3. rewrite !lget_ltab by assumption.
  pose proof (fun j => strain3_cn e g j He) as Ec. pose proof E0_big as LE. pose proof (tw_Cs _ _ _ _ TW) as LC. pose proof (pos_p2 _ _ LC) as PC. pose proof (pos_p2 _ _ LE) as PE.
  assert (L1 : p2 (-260) <= Cs * E0) by exact (p2_mul (-100) (-160) _ _ LC LE).
  destruct (v <? 3)%Z.
  - pose proof (cn_add _ _ _ _ _ _ _ (Ec 0%Z ltac:(lia)) (Ec 1%Z ltac:(lia))) as T1.
    pose proof (cn_add _ _ _ _ _ _ _ T1 (cn_up _ 57 _ _ _ (Ec 2%Z ltac:(lia)) ltac:(lia))) as T2.
    assert (L2 : tiny <= Cs * (E0 + E0 + E0)) by (apply (tiny_p2 (-260)); [lia|]; pose proof (pos_p2 _ _ L1); lra).
    pose proof (cn_mul _ _ _ _ _ _ _ _ Ml T2 L2) as T3.
    pose proof (cn_int 0 2 ltac:(lia)) as I2. rewrite (Rabs_pos_eq 2) in I2 by lra.
    assert (L3 : tiny <= 2 * (Cs / 2)) by (apply (tiny_p2 (-100)); [lia|]; lra).
    pose proof (cn_mul _ _ _ _ _ _ _ _ I2 Mm L3) as T4.
    assert (L4 : tiny <= 2 * (Cs / 2) * E0) by (apply (tiny_p2 (-260)); [lia|]; replace (2 * (Cs / 2)) with Cs by field; exact L1).
    pose proof (cn_mul _ _ _ _ _ _ _ _ T4 (Ec v Hv) L4) as T5.
    eapply cn_le; [exact (cn_add _ _ _ _ _ _ _ T3 (cn_up _ 72 _ _ _ T5 ltac:(lia)))|lia|]. lra.
  - assert (L4 : tiny <= Cs / 2 * E0) by (apply (tiny_p2 (-261)); [lia|]; replace (Cs / 2 * E0) with (/ 2 * (Cs * E0)) by field; apply (p2_mul (-1) (-260)); [cbn; lra|exact L1]).
    eapply cn_le; [exact (cn_mul _ _ _ _ _ _ _ _ Mm (Ec v Hv) L4)|lia|].
    assert (0 <= Cs * E0) by (apply Rmult_le_pos; lra). lra.
Qed.
Lemma be3_cn oa ob e i : In e (els3 V) -> (0 <= i < 24)%Z -> cn 157 (lget (be3 V uf oa e) i) (lget (be3 W vf ob e) i) (8 * (6 * (H * S0 * wg3 W))).
Proof.
  intros He Hi. destruct w3_rl as [Q L]. unfold be3.
  pose proof (p2_mul (-60) (-260) _ _ Hbig S0_big) as L1. pose proof (p2_mul _ _ _ _ L1 L) as L2.
  pose proof (cn_rhs 6 24 73 (B3 V) (B3 W) (fun g => sig3 V oa e g (strain3 V uf e g)) (fun g => sig3 W ob e g (strain3 W vf e g)) (wg3 V) (wg3 W) H S0
    ltac:(lia) B3_cn Q (tiny_p2 (-60 + -260) _ ltac:(lia) L1) (tiny_p2 (-60 + -260 + -276) _ ltac:(lia) L2) (zrange 0 8) i Hi (fun g v _ Hv => sig3_cn oa ob e g v He Hv) 109 _ _ 0 (le_n _) (cn_zeros 24 109 i Hi)) as K.
  change (length (zrange 0 8)) with 8%nat in K. change (INR 8) with (1 + 1 + 1 + 1 + 1 + 1 + 1 + 1) in K. eapply cn_le; [exact K|lia|]. lra.
Qed.
Lemma aux3_cn oa ob e v : In e (els3 V) -> (0 <= v < 6)%Z -> cn 97 (lget (aux3 V uf oa e) v) (lget (aux3 W vf ob e) v) (8 * (S0 * wg3 W)).
Proof.
  intros He Hv. destruct w3_rl as [Q L]. unfold aux3. pose proof (p2_mul _ _ _ _ S0_big L) as L2.
  pose proof (cn_ave 6 73 (fun g => sig3 V oa e g (strain3 V uf e g)) (fun g => sig3 W ob e g (strain3 W vf e g)) (wg3 V) (wg3 W) S0 v Hv
    Q (tiny_p2 (-260 + -276) _ ltac:(lia) L2) (zrange 0 8) (fun g _ => sig3_cn oa ob e g v He Hv) 89 _ _ 0 (le_n _) (cn_zeros 6 89 v Hv)) as K.
  change (length (zrange 0 8)) with 8%nat in K. change (INR 8) with (1 + 1 + 1 + 1 + 1 + 1 + 1 + 1) in K. eapply cn_le; [exact K|lia|]. lra.
Qed.
Lemma eaux3_cn e v : In e (els3 V) -> (0 <= v < 6)%Z -> cn 97 (lget (eaux3 V uf e) v) (lget (eaux3 W vf e) v) (8 * (E0 * wg3 W)).
Proof.
  intros He Hv. destruct w3_rl as [Q L]. unfold eaux3. pose proof (p2_mul _ _ _ _ E0_big L) as L2.
  pose proof (cn_ave 6 56 (fun g => strain3 V uf e g) (fun g => strain3 W vf e g) (wg3 V) (wg3 W) E0 v Hv
    Q (tiny_p2 (-160 + -276) _ ltac:(lia) L2) (zrange 0 8) (fun g _ => strain3_cn e g v He Hv) 89 _ _ 0 ltac:(lia) (cn_zeros 6 89 v Hv)) as K.
  change (length (zrange 0 8)) with 8%nat in K. change (INR 8) with (1 + 1 + 1 + 1 + 1 + 1 + 1 + 1) in K. eapply cn_le; [exact K|lia|]. lra.
Qed.
End Three.

(** sums of contributions *)
Lemma deltas_f2 {k c} (ws : list (Z * flt)) (zs : list (Z * R)) j : Forall2 (fun p q => fst p = fst q /\ cn k (snd p) (snd q) c) ws zs ->
  Forall2 (fun x y => cn k x y c) (deltas ws j) (deltas zs j).
Proof.
  intro F. unfold deltas. induction F as [|p q ws zs [Ep Cp] F IH]; [constructor|]. cbn [filter]. rewrite Ep.
  destruct (fst q =? j)%Z; [cbn [map]; constructor; assumption|exact IH].
Qed.
Lemma fold_f2 {k c} (xs : list flt) (ys : list R) : Forall2 (fun x y => cn k x y c) xs ys -> forall m z y a, (k <= m)%nat -> cn m z y a ->
  cn (m + length xs) (fold_left oadd xs z) (fold_left oadd ys y) (a + INR (length xs) * c).
Proof.
  induction 1 as [|x y xs ys C F IH]; intros m z w a Km Cz.
  - cbn [length fold_left]. rewrite Rmult_0_l, Rplus_0_r, Nat.add_0_r. exact Cz.
  - cbn [fold_left]. change (length (x :: xs)) with (S (length xs)). specialize (IH (S m) _ _ _ ltac:(lia) (cn_add _ _ _ _ _ _ _ Cz (cn_up _ m _ _ _ C Km))).
    eapply cn_le; [exact IH|lia|]. rewrite S_INR. lra.
Qed.
Lemma cn_dec0 k : cn k (dec 0 1) (dec 0 1) 0.
Proof. rewrite dec01_R. assert (E : (dec 0 1 : flt) = ofZ 0) by (vm_compute; reflexivity). rewrite E. apply cn_zero. lra. Qed.
Lemma f2_flat {A X Y} (P : X -> Y -> Prop) (f : A -> list X) (h : A -> list Y) l : (forall a, In a l -> Forall2 P (f a) (h a)) -> Forall2 P (flat_map f l) (flat_map h l).
Proof.
  induction l as [|a l IH]; intro F; [constructor|]. cbn [flat_map]. apply Forall2_app; [apply F; left; reflexivity|]. apply IH. intros b Hb. apply F. right. exact Hb.
Qed.
Lemma f2_map {A X Y} (P : X -> Y -> Prop) (f : A -> X) (h : A -> Y) l : (forall a, In a l -> P (f a) (h a)) -> Forall2 P (map f l) (map h l).
Proof. induction l as [|a l IH]; intro F; [constructor|]. cbn [map]. constructor; [apply F; left; reflexivity|]. apply IH. intros b Hb. apply F. right. exact Hb. Qed.
Lemma area_rl : rl 2 (area V) (area W) /\ p2 (-120) <= area W /\ area W <= p2 120.
Proof.
  pose proof (tw_lx_r _ _ _ _ TW) as [Lx Ux]. pose proof (tw_ly_r _ _ _ _ TW) as [Ly Uy]. pose proof (p2_mul _ _ _ _ Lx Ly) as L.
  pose proof (pos_p2 _ _ Lx). pose proof (pos_p2 _ _ Ly).
  assert (Up : 0 <= v_lx W * v_ly W <= p2 (60 + 60)) by (apply p2_up; lra).
  split; [|split; [exact L|exact (proj2 Up)]].
  apply (rl_mul 0 0 _ _ _ _ (tw_lx _ _ _ _ TW) (tw_ly _ _ _ _ TW) (gam_half 0 ltac:(lia)) (gam_half 0 ltac:(lia))).
  - apply (tiny_p2 (-60 + -60)); [lia|exact L].
  - exact (p2_up_le _ 1000 _ Up ltac:(lia)).
Qed.
Lemma div_area k x y a : cn k x y a -> p2 (-536) <= a -> cn (k + 6) (odiv x (area V)) (y / area W) (a / area W).
Proof.
  intros C L. destruct area_rl as (Q & La & Ua). eapply cn_up; [apply (cn_div _ _ _ _ _ _ _ C Q (gam_half 2 ltac:(lia)))|lia].
  apply (tiny_p2 (-536 - 120)); [lia|]. apply p2_div; [exact L|exact (pos_p2 _ _ La)|exact Ua].
Qed.

Section Three2.
Hypothesis D3 : v_dim V = 3%Z.
Hypothesis Some_cell : (1 <= length (els3 V))%nat.
Notation n := (length (els3 V)).
Lemma ave3_cn (f : Z * Z * Z -> list flt) h v c : (0 <= v < 6)%Z -> (forall e, In e (els3 V) -> cn 97 (lget (f e) v) (lget (h e) v) c) -> p2 (-536) <= c ->
  cn (103 + n) (lget (ave3 V f) v) (lget (ave3 W h) v) (INR n * c / area W).
Proof.
  intros Hv Hf L. unfold ave3. rewrite !lget_ltab by assumption. rewrite tw_els3.
  pose proof (cn_vec 6 f h v c Hv (els3 V) 97 (zeros 6) (zeros 6) 0 Hf (cn_zeros 6 97 v Hv)) as K. rewrite Rplus_0_l in K.
  eapply cn_up; [apply (div_area _ _ _ _ K)|lia]. apply le_INR in Some_cell. change (INR 1) with 1 in Some_cell. pose proof (pos_p2 _ _ L) as Pc.
  assert (1 * c <= INR n * c) by (apply Rmult_le_compat_r; lra). lra.
Qed.
Lemma stress3_cn oa ob v : (0 <= v < 6)%Z -> cn (103 + n) (lget (ave3 V (aux3 V uf oa)) v) (lget (ave3 W (aux3 W vf ob)) v) (INR n * (8 * (S0 * wg3 W)) / area W).
Proof.
  intro Hv. destruct (w3_rl D3) as [_ L]. apply ave3_cn; [exact Hv|intros e He; exact (aux3_cn D3 oa ob e v He Hv)|].
  pose proof (p2_mul _ _ _ _ S0_big L) as L2. change (-260 + -276)%Z with (-536)%Z in L2. pose proof (pos_p2 _ _ L2). lra.
Qed.
Lemma avstrain3_cn v : (0 <= v < 6)%Z -> cn (103 + n) (lget (ave3 V (eaux3 V uf)) v) (lget (ave3 W (eaux3 W vf)) v) (INR n * (8 * (E0 * wg3 W)) / area W).
Proof.
  intro Hv. destruct (w3_rl D3) as [_ L]. apply ave3_cn; [exact Hv|intros e He; exact (eaux3_cn D3 e v He Hv)|].
  pose proof (p2_mul _ _ _ _ E0_big L) as L2. pose proof (pos_p2 _ _ L2). apply p2_le with (e := (-160 + -276)%Z); [lra|lia].
Qed.
Lemma resid3_cn oa ob a : cn 165 (resid V 3 (rhs_all3 V uf oa) a) (resid W 3 (rhs_all3 W vf ob) a) (8 * (8 * (6 * (H * S0 * wg3 W)))).
Proof.
  set (c := 8 * (6 * (H * S0 * wg3 W))).
  assert (F : Forall2 (fun p q => fst p = fst q /\ cn 157 (snd p) (snd q) c) (rhs_all3 V uf oa) (rhs_all3 W vf ob)).
  { unfold rhs_all3. rewrite tw_els3, (tw_nx _ _ _ _ TW), (tw_ny _ _ _ _ TW). apply f2_flat. intros [[ex ey] ez] He. unfold rhs_adds. apply f2_map. intros i Hi. apply in_zrange in Hi. split; [reflexivity|].
    apply be3_cn; assumption. }
  pose proof (deltas_f2 _ _ a F) as G. pose proof (corners_count3 V uf oa a) as Ct.
  assert (Pc : 0 <= c).
  { destruct (w3_rl D3) as [_ L]. pose proof (pos_p2 _ _ L). pose proof (pos_p2 _ _ Hbig). pose proof (pos_p2 _ _ S0_big). unfold c.
    assert (0 <= H * S0 * wg3 W) by (apply Rmult_le_pos; [apply Rmult_le_pos|]; lra). lra. }
  assert (Bd : bndb W (v_nz W) (a / 3) = bndb V (v_nz V) (a / 3)).
  { unfold bndb. now rewrite (tw_nx _ _ _ _ TW), (tw_ny _ _ _ _ TW), (tw_nz _ _ _ _ TW), (tw_dim _ _ _ _ TW). }
  unfold resid. rewrite Bd. apply cn_opp. destruct (bndb V (v_nz V) (a / 3)).
  - eapply cn_le; [apply (cn_dec0 165)|lia|lra].
  - eapply cn_le; [exact (fold_f2 _ _ G 157 _ _ 0 (le_n _) (cn_dec0 157))|lia|].
    apply le_INR in Ct. change (INR 8) with (1 + 1 + 1 + 1 + 1 + 1 + 1 + 1) in Ct. assert (INR (length (deltas (rhs_all3 V uf oa) a)) * c <= (1 + 1 + 1 + 1 + 1 + 1 + 1 + 1) * c) by (apply Rmult_le_compat_r; lra). lra.
Qed.
End Three2.

Section Two.
Hypothesis D2 : v_dim V = 2%Z.
Hypothesis Nz1 : v_nz V = 1%Z.
Hypothesis Some_cell2 : (1 <= length (els2 V))%nat.
Notation n := (length (els2 V)).
Lemma B2_cn g v i : (0 <= v < 3)%Z -> cn 18 (B2 V g v i) (B2 W g v i) H.
Proof. exact (cn_B2 V W H (tw_dx _ _ _ _ TW) (tw_dy _ _ _ _ TW) (tw_hx _ _ _ _ TW) (tw_hy _ _ _ _ TW) g v i). Qed.
Lemma rl_up k k' x y : rl k x y -> (k <= k')%nat -> rl k' x y.
Proof. intros (F & P & L) K. split; [exact F|]. split; [exact P|]. eapply Rle_trans; [exact L|]. apply Rmult_le_compat_r; [lra|]. apply gam_le. exact K. Qed.
Lemma w2_rl : rl 14 (wg2 V) (wg2 W) /\ p2 (-276) <= wg2 W.
Proof.
  destruct (wg2_rl V W (tw_dx _ _ _ _ TW) (tw_dy _ _ _ _ TW)) as (Q & L & _). split; [eapply rl_up; [exact Q|lia]|]. eapply p2_le; [exact L|lia].
Qed.
Lemma disp2_cn e i : In e (els2 V) -> (0 <= i < 8)%Z -> cn 12 (disp2 V uf e i) (disp2 W vf e i) U.
Proof.
  intros He Hi. destruct e as [ex ey]. apply in_els2 in He. unfold disp2. rewrite (tw_nx _ _ _ _ TW), (tw_ny _ _ _ _ TW). apply Near. rewrite D2, Nz1.
  pose proof (corner2_range (v_nx V) (v_ny V) ex ey (i / 2)) as R0. pose proof (Z.mod_pos_bound i 2).
  assert (0 <= i / 2 < 4)%Z by (Z.div_mod_to_equations; lia). lia.
Qed.
Lemma strain2_cn e g v : In e (els2 V) -> (0 <= v < 3)%Z -> cn 40 (lget (strain2 V uf e g) v) (lget (strain2 W vf e g) v) (8 * (H * U)).
Proof.
  intros He Hv. unfold strain2.
  apply (cn_strain 3 8 12 (B2 V g) (B2 W g) _ _ H U v); [lia|exact Hv| | |apply (tiny_p2 (-160)); [lia|exact HUbig]].
  - intro i. apply B2_cn. exact Hv.
  - intros i Hi. rewrite !lget_ltab by assumption. now apply disp2_cn.
Qed.
Lemma sig2_cn e g v : In e (els2 V) -> (0 <= v < 3)%Z -> cn 73 (lget (sig2 V e (strain2 V uf e g)) v) (lget (sig2 W e (strain2 W vf e g)) v) S0.
Proof.
  intros He Hv. pose proof (ix2_range V e D2 He) as Rg. destruct (tw_mat _ _ _ _ TW _ Rg) as (_ & _ & Mc).
  unfold sig2. rewrite tw_ix2. unfold stress2. rewrite !lget_ltab by assumption. rewrite sumf_R.
  pose proof (tw_Cs _ _ _ _ TW) as LC. pose proof (pos_p2 _ _ LC) as PC. pose proof HUbig as LE. pose proof (pos_p2 _ _ LE) as PE. pose proof CHUbig as L1. pose proof (pos_p2 _ _ L1) as P1.
  set (m := mat_at V (ix2 V e)) in *. set (m' := mat_at W (ix2 V e)) in *.
  pose proof (cn_sum_c (zrange 0 3) (fun j => omul (ctan2 (m_E m) (m_nu m) v j) (lget (strain2 V uf e g) j)) (fun j => ctan2 (m_E m') (m_nu m') v j * lget (strain2 W vf e g) j) 58 (2 * Cs * (8 * (H * U)))) as Q.
  change (length (zrange 0 3)) with 3%nat in Q. change (INR 3) with (1 + 1 + 1) in Q.
  eapply cn_le; [apply Q|lia|lra].
  intros j Hj. apply in_zrange in Hj. assert (L2 : tiny <= 2 * Cs * (8 * (H * U))) by (apply (tiny_p2 (-260)); [lia|lra]).
  exact (cn_mul 16 40 _ _ _ _ _ _ (Mc v j) (strain2_cn e g j He Hj) L2).
Qed.
Lemma be2_cn e i : In e (els2 V) -> (0 <= i < 8)%Z -> cn 157 (lget (be2 V uf e) i) (lget (be2 W vf e) i) (4 * (3 * (H * S0 * wg2 W))).
Proof.
  intros He Hi. destruct w2_rl as [Q L]. unfold be2.
  pose proof (p2_mul (-60) (-260) _ _ Hbig S0_big) as L1. pose proof (p2_mul _ _ _ _ L1 L) as L2.
  pose proof (cn_rhs 3 8 73 (B2 V) (B2 W) (fun g => sig2 V e (strain2 V uf e g)) (fun g => sig2 W e (strain2 W vf e g)) (wg2 V) (wg2 W) H S0
    ltac:(lia) B2_cn Q (tiny_p2 (-60 + -260) _ ltac:(lia) L1) (tiny_p2 (-60 + -260 + -276) _ ltac:(lia) L2) (zrange 0 4) i Hi (fun g v _ Hv => sig2_cn e g v He Hv) 109 _ _ 0 (le_n _) (cn_zeros 8 109 i Hi)) as K.
  change (length (zrange 0 4)) with 4%nat in K. change (INR 4) with (1 + 1 + 1 + 1) in K. eapply cn_le; [exact K|lia|]. lra.
Qed.
Lemma aux2_cn e v : In e (els2 V) -> (0 <= v < 3)%Z -> cn 97 (lget (aux2 V uf e) v) (lget (aux2 W vf e) v) (4 * (S0 * wg2 W)).
Proof.
  intros He Hv. destruct w2_rl as [Q L]. unfold aux2. pose proof (p2_mul _ _ _ _ S0_big L) as L2.
  pose proof (cn_ave 3 73 (fun g => sig2 V e (strain2 V uf e g)) (fun g => sig2 W e (strain2 W vf e g)) (wg2 V) (wg2 W) S0 v Hv
    Q (tiny_p2 (-260 + -276) _ ltac:(lia) L2) (zrange 0 4) (fun g _ => sig2_cn e g v He Hv) 89 _ _ 0 (le_n _) (cn_zeros 3 89 v Hv)) as K.
  change (length (zrange 0 4)) with 4%nat in K. change (INR 4) with (1 + 1 + 1 + 1) in K. eapply cn_le; [exact K|lia|]. lra.
Qed.
Lemma eaux2_cn e v : In e (els2 V) -> (0 <= v < 3)%Z -> cn 97 (lget (eaux2 V uf e) v) (lget (eaux2 W vf e) v) (4 * (E0 * wg2 W)).
Proof.
  intros He Hv. destruct w2_rl as [Q L]. unfold eaux2. pose proof (p2_mul _ _ _ _ E0_big L) as L2.
  pose proof (cn_ave 3 40 (fun g => strain2 V uf e g) (fun g => strain2 W vf e g) (wg2 V) (wg2 W) E0 v Hv
    Q (tiny_p2 (-160 + -276) _ ltac:(lia) L2) (zrange 0 4)) as K.
  assert (Le : 8 * (H * U) <= E0) by (pose proof (pos_p2 _ _ HUbig); lra).
  specialize (K (fun g _ => cn_le 40 40 _ _ _ E0 (strain2_cn e g v He Hv) (le_n _) Le)
    89%nat _ _ 0 ltac:(lia) (cn_zeros 3 89 v Hv)).
  change (length (zrange 0 4)) with 4%nat in K. change (INR 4) with (1 + 1 + 1 + 1) in K. eapply cn_le; [exact K|lia|]. lra.
Qed.
Lemma ave2_cn (f : Z * Z -> list flt) h v c : (0 <= v < 3)%Z -> (forall e, In e (els2 V) -> cn 97 (lget (f e) v) (lget (h e) v) c) -> p2 (-536) <= c ->
  cn (103 + n) (lget (ave2 V f) v) (lget (ave2 W h) v) (INR n * c / area W).
Proof.
  intros Hv Hf L. unfold ave2. rewrite !lget_ltab by assumption. rewrite tw_els2.
  pose proof (cn_vec 3 f h v c Hv (els2 V) 97 (zeros 3) (zeros 3) 0 Hf (cn_zeros 3 97 v Hv)) as K. rewrite Rplus_0_l in K.
  eapply cn_up; [apply (div_area _ _ _ _ K)|lia]. apply le_INR in Some_cell2. change (INR 1) with 1 in Some_cell2. pose proof (pos_p2 _ _ L) as Pc.
  assert (1 * c <= INR n * c) by (apply Rmult_le_compat_r; lra). lra.
Qed.
Lemma stress2_cn v : (0 <= v < 3)%Z -> cn (103 + n) (lget (ave2 V (aux2 V uf)) v) (lget (ave2 W (aux2 W vf)) v) (INR n * (4 * (S0 * wg2 W)) / area W).
Proof.
  intro Hv. destruct w2_rl as [_ L]. apply ave2_cn; [exact Hv|intros e He; exact (aux2_cn e v He Hv)|].
  pose proof (p2_mul _ _ _ _ S0_big L) as L2. change (-260 + -276)%Z with (-536)%Z in L2. pose proof (pos_p2 _ _ L2). lra.
Qed.
Lemma avstrain2_cn v : (0 <= v < 3)%Z -> cn (103 + n) (lget (ave2 V (eaux2 V uf)) v) (lget (ave2 W (eaux2 W vf)) v) (INR n * (4 * (E0 * wg2 W)) / area W).
Proof.
  intro Hv. destruct w2_rl as [_ L]. apply ave2_cn; [exact Hv|intros e He; exact (eaux2_cn e v He Hv)|].
  pose proof (p2_mul _ _ _ _ E0_big L) as L2. pose proof (pos_p2 _ _ L2). apply p2_le with (e := (-160 + -276)%Z); [lra|lia].
Qed.
Lemma resid2_cn a : cn 165 (resid V 2 (rhs_all2 V uf) a) (resid W 2 (rhs_all2 W vf) a) (4 * (4 * (3 * (H * S0 * wg2 W)))).
Proof.
  set (c := 4 * (3 * (H * S0 * wg2 W))).
  assert (F : Forall2 (fun p q => fst p = fst q /\ cn 157 (snd p) (snd q) c) (rhs_all2 V uf) (rhs_all2 W vf)).
  { unfold rhs_all2. rewrite tw_els2, (tw_nx _ _ _ _ TW). apply f2_flat. intros [ex ey] He. unfold rhs_adds. apply f2_map. intros i Hi. apply in_zrange in Hi. split; [reflexivity|].
    apply be2_cn; assumption. }
  pose proof (deltas_f2 _ _ a F) as G. pose proof (corners_count2 V uf a) as Ct.
  assert (Pc : 0 <= c).
  { destruct w2_rl as [_ L]. pose proof (pos_p2 _ _ L). pose proof (pos_p2 _ _ Hbig). pose proof (pos_p2 _ _ S0_big). unfold c.
    assert (0 <= H * S0 * wg2 W) by (apply Rmult_le_pos; [apply Rmult_le_pos|]; lra). lra. }
  assert (Bd : bndb W (v_nz W) (a / 2) = bndb V (v_nz V) (a / 2)).
  { unfold bndb. now rewrite (tw_nx _ _ _ _ TW), (tw_ny _ _ _ _ TW), (tw_nz _ _ _ _ TW), (tw_dim _ _ _ _ TW). }
  unfold resid. rewrite Bd. apply cn_opp. destruct (bndb V (v_nz V) (a / 2)).
  - eapply cn_le; [apply (cn_dec0 165)|lia|lra].
  - eapply cn_le; [exact (fold_f2 _ _ G 157 _ _ 0 (le_n _) (cn_dec0 157))|lia|].
    apply le_INR in Ct. change (INR 4) with (1 + 1 + 1 + 1) in Ct. assert (INR (length (deltas (rhs_all2 V uf) a)) * c <= (1 + 1 + 1 + 1) * c) by (apply Rmult_le_compat_r; lra). lra.
Qed.
End Two.
End Twin.
