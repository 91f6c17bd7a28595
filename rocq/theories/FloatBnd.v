(** The prescribed displacements in doubles, and what a finite average stress says about the field. *)
From Coq Require Import Reals Lra ZifyBool ZifyNat.
From Flocq Require Import BinarySingleNaN.
From Verif Require Import Base Scalar EllSpec EllInit EllAsm AssemblyModel AsmPure AsmBnd AsmRun FemGen FemAve FemRhs AsmMat MicroModel NewtonBase BinInst FloatSum FloatFem FloatBody FloatMat FloatNewton.
Open Scope Z_scope.
Open Scope R_scope.
Notation val := (@B2R 53 1024).

(** two lists of stores to the same places *)
Lemma stores_f2 {X Y} (P : X -> Y -> Prop) ws zs : Forall2 (fun p q => fst p = fst q /\ P (snd p) (snd q)) ws zs ->
  forall a a' b b', run_stores ws a = Ok a' -> run_stores zs b = Ok b' -> forall j,
  (aget a' j = aget a j /\ aget b' j = aget b j) \/ exists x y, aget a' j = Some x /\ aget b' j = Some y /\ P x y.
Proof.
  intros F. induction F as [|(k, x) (k', y) ws zs (Ek & Pxy) F IH]; intros a a' b b' Ea Eb j.
  - cbn in Ea, Eb. injection Ea as <-. injection Eb as <-. left. split; reflexivity.
  - cbn [fst snd] in *. subst k'. change (run_stores ((k, x) :: ws) a) with (a1 <- wr a k x ;; run_stores ws a1) in Ea. change (run_stores ((k, y) :: zs) b) with (b1 <- wr b k y ;; run_stores zs b1) in Eb.
    destruct (wr a k x) as [a1|] eqn:E1; cbn [bind] in Ea; [|discriminate]. destruct (wr b k y) as [b1|] eqn:E2; cbn [bind] in Eb; [|discriminate].
    destruct (wr_inv _ _ _ _ E1) as (_ & _ & G1). destruct (wr_inv _ _ _ _ E2) as (_ & _ & G2).
    destruct (IH a1 a' b1 b' Ea Eb j) as [(A & B)|H]; [|right; exact H]. rewrite A, B, G1, G2. destruct (j =? k)%Z; [right; eauto|left; auto].
Qed.

Section Bnd.
Variables (V : env flt) (H M L em : R) (eps : list flt).
Hypothesis F : fair V H M.
Hypothesis Lx : val (v_lx V) <= L.
Hypothesis Ly : val (v_ly V) <= L.
Hypothesis Lz : v_dim V = 3%Z -> val (v_lz V) <= L.
Hypothesis Em : p2 (-40) <= em.
Hypothesis He : forall v, (0 <= v < 6)%Z -> Rabs (val (lget eps v)) <= em.
Notation W := (exact_env V).
Notation P := (fun p q => fst p = fst q /\ cn 12 (snd p) (snd q) (2 * (em * L))).

Lemma L_big : p2 (-60) <= L.
Proof. destruct (fr_x _ _ _ F) as (_ & (A & _) & _). lra. Qed.
Lemma L_pos : 0 < L.
Proof. exact (pos_p2 _ _ L_big). Qed.
Lemma em_pos : 0 < em.
Proof. exact (pos_p2 _ _ Em). Qed.
(** coordinates *)
Lemma coord_cn (x : flt) n i : fair_side x n -> (0 <= i < n)%Z -> val x <= L -> cn 4 (omul (ofZ i) (odiv x (ofZ (n - 1)))) (IZR i * (val x / IZR (n - 1))) L.
Proof.
  intros Sd Hi Hl. destruct (cell_size x n Sd) as (R1 & B1 & _). destruct Sd as (_ & (B & _) & Hn).
  assert (C : cn 0 (ofZ i) (IZR i) (IZR (n - 1))).
  { eapply cn_le; [exact (cn_int 0 i ltac:(lia))|lia|]. rewrite Rabs_pos_eq by (apply (IZR_le 0); lia). apply IZR_le. lia. }
  assert (N1 : 1 <= IZR (n - 1)) by (apply (IZR_le 1); lia).
  assert (E : IZR (n - 1) * (val x / IZR (n - 1)) = val x) by (field; lra).
  assert (T : tiny <= IZR (n - 1) * (val x / IZR (n - 1))) by (rewrite E; exact (p2_tiny _ _ B ltac:(lia))).
  eapply cn_le; [exact (cn_mul 0 2 _ _ _ _ _ _ C (rl_cn _ _ _ R1) T)|lia|]. rewrite E. exact Hl.
Qed.
Lemma side_cn (x : flt) n : fair_side x n -> val x <= L -> cn 4 x (val x) L.
Proof. intros (_ & (B & _) & _) Hl. apply cn_val. pose proof (pos_p2 _ _ B). rewrite Rabs_pos_eq; lra. Qed.
Lemma zero_cn : cn 4 (dec 0 1) (dec 0 1) L.
Proof. eapply cn_le; [exact (cn_dec0 4)|lia|]. pose proof L_pos. lra. Qed.
(** strains times coordinates *)
Lemma full_cn v x y : (0 <= v < 6)%Z -> cn 4 x y L -> cn 10 (omul (lget eps v) x) (val (lget eps v) * y) (em * L).
Proof.
  intros Hv C. pose proof (p2_mul _ _ _ _ Em L_big) as T. eapply cn_le; [exact (cn_mul 0 4 _ _ _ _ _ _ (cn_val 0 _ em (He v Hv)) C (p2_tiny _ _ T ltac:(lia)))|lia|lra].
Qed.
Lemma half_cn v x y : (0 <= v < 6)%Z -> cn 4 x y L -> cn 10 (omul (omul (dec 5 1) (lget eps v)) x) (5 / 10 * val (lget eps v) * y) (em * L / 2).
Proof.
  intros Hv C. pose proof em_pos as Pe. pose proof (cn_dec 5 1 ltac:(lia) ltac:(lia)) as D5. change (IZR (10 ^ 1)) with 10 in D5.
  assert (T1 : p2 (-41) <= 5 / 10 * em). { change (-41)%Z with (-1 + -40)%Z. apply p2_mul; [change (p2 (-1)) with (/ 2); lra|exact Em]. }
  pose proof (cn_mul 2 0 _ _ _ _ _ _ D5 (cn_val 0 _ em (He v Hv)) (p2_tiny _ _ T1 ltac:(lia))) as Q. pose proof (p2_mul _ _ _ _ T1 L_big) as T2.
  eapply cn_le; [exact (cn_mul 4 4 _ _ _ _ _ _ Q C (p2_tiny _ _ T2 ltac:(lia)))|lia|lra].
Qed.
Lemma three_cn x1 x2 x3 y1 y2 y3 a1 a2 a3 : cn 10 x1 y1 a1 -> cn 10 x2 y2 a2 -> cn 10 x3 y3 a3 -> a1 + a2 + a3 <= 2 * (em * L) ->
  cn 12 (oadd (oadd x1 x2) x3) (y1 + y2 + y3) (2 * (em * L)).
Proof.
  intros C1 C2 C3 Ha. pose proof (cn_add _ _ _ _ _ _ _ C1 C2) as A. eapply cn_le; [exact (cn_add _ _ _ _ _ _ _ A (cn_up _ 11 _ _ _ C3 ltac:(lia)))|lia|exact Ha].
Qed.
Lemma two_cn x1 x2 y1 y2 a1 a2 : cn 10 x1 y1 a1 -> cn 10 x2 y2 a2 -> a1 + a2 <= 2 * (em * L) -> cn 12 (oadd x1 x2) (y1 + y2) (2 * (em * L)).
Proof. intros C1 C2 Ha. eapply cn_le; [exact (cn_add _ _ _ _ _ _ _ C1 C2)|lia|exact Ha]. Qed.
Lemma lget_vals (l : list flt) v : lget (map val l) v = val (lget l v).
Proof. unfold lget. change (@ofZ R ROps 0) with 0. rewrite <- val_0. apply map_nth. Qed.
Lemma displ3_cn n x y z x' y' z' : cn 4 x x' L -> cn 4 y y' L -> cn 4 z z' L -> Forall2 P (displ3 eps n x y z) (displ3 (map val eps) n x' y' z').
Proof.
  intros X Y Z. unfold displ3. cbv zeta. rewrite !lget_vals. pose proof em_pos. pose proof L_pos.
  assert (0 < em * L) by now apply Rmult_lt_0_compat.
  pose proof (full_cn 0 _ _ ltac:(lia) X) as A1. pose proof (half_cn 3 _ _ ltac:(lia) Y) as A2. pose proof (half_cn 4 _ _ ltac:(lia) Z) as A3.
  pose proof (half_cn 3 _ _ ltac:(lia) X) as B1. pose proof (full_cn 1 _ _ ltac:(lia) Y) as B2. pose proof (half_cn 5 _ _ ltac:(lia) Z) as B3.
  pose proof (half_cn 4 _ _ ltac:(lia) X) as C1. pose proof (half_cn 5 _ _ ltac:(lia) Y) as C2. pose proof (full_cn 2 _ _ ltac:(lia) Z) as C3.
  constructor; [split; [reflexivity|exact (three_cn _ _ _ _ _ _ _ _ _ A1 A2 A3 ltac:(lra))]|].
  constructor; [split; [reflexivity|exact (three_cn _ _ _ _ _ _ _ _ _ B1 B2 B3 ltac:(lra))]|].
  constructor; [split; [reflexivity|exact (three_cn _ _ _ _ _ _ _ _ _ C1 C2 C3 ltac:(lra))]|]. constructor.
Qed.
Lemma displ2_cn n x y x' y' : cn 4 x x' L -> cn 4 y y' L -> Forall2 P (displ2 eps n x y) (displ2 (map val eps) n x' y').
Proof.
  intros X Y. unfold displ2. rewrite !lget_vals. pose proof em_pos. pose proof L_pos.
  assert (0 < em * L) by now apply Rmult_lt_0_compat.
  pose proof (full_cn 0 _ _ ltac:(lia) X) as A1. pose proof (half_cn 2 _ _ ltac:(lia) Y) as A2.
  pose proof (half_cn 2 _ _ ltac:(lia) X) as B1. pose proof (full_cn 1 _ _ ltac:(lia) Y) as B2.
  constructor; [split; [reflexivity|exact (two_cn _ _ _ _ _ _ A1 A2 ltac:(lra))]|].
  constructor; [split; [reflexivity|exact (two_cn _ _ _ _ _ _ B1 B2 ltac:(lra))]|]. constructor.
Qed.
Lemma displ_cn : if (v_dim V =? 2)%Z then Forall2 P (set_displ2_stores V eps) (set_displ2_stores W (map val eps)) else
  v_dim V = 3%Z -> Forall2 P (set_displ3_stores V eps) (set_displ3_stores W (map val eps)).
Proof.
  pose proof (fr_x _ _ _ F) as Fx. pose proof (fr_y _ _ _ F) as Fy.
  assert (Cx : forall i, (0 <= i < v_nx V)%Z -> cn 4 (omul (ofZ i) (v_dx V)) (IZR i * v_dx W) L) by (intros i Hi; rewrite (fr_dx _ _ _ F); now apply coord_cn).
  assert (Cy : forall i, (0 <= i < v_ny V)%Z -> cn 4 (omul (ofZ i) (v_dy V)) (IZR i * v_dy W) L) by (intros i Hi; rewrite (fr_dy _ _ _ F); now apply coord_cn).
  pose proof zero_cn as C0. pose proof (side_cn _ _ Fx Lx) as Sx. pose proof (side_cn _ _ Fy Ly) as Sy.
  destruct (v_dim V =? 2)%Z eqn:D2.
  - unfold set_displ2_stores. cbn [exact_env v_nx v_ny]. repeat apply Forall2_app; apply f2_flat; intros i Hi; apply in_zrange in Hi; apply displ2_cn; try assumption; try (apply Cx; lia); apply Cy; lia.
  - intro D. pose proof (fr_z _ _ _ F D) as Fz. pose proof (side_cn _ _ Fz (Lz D)) as Sz.
    assert (Cz : forall i, (0 <= i < v_nz V)%Z -> cn 4 (omul (ofZ i) (v_dz V)) (IZR i * v_dz W) L) by (intros i Hi; rewrite (fr_dz _ _ _ F D); apply coord_cn; [exact Fz|exact Hi|exact (Lz D)]).
    unfold set_displ3_stores. cbn [exact_env v_nx v_ny v_nz].
    repeat apply Forall2_app; apply f2_flat; intros i Hi; apply in_zrange in Hi; apply f2_flat; intros j Hj; apply in_zrange in Hj; apply displ3_cn; try assumption;
      first [apply Cx; lia|apply Cy; lia|apply Cz; lia].
Qed.
End Bnd.

(** ** A finite average stress has finite displacements behind it *)
Lemma vec_fin {A} nv (f : A -> list flt) v : (0 <= v < nv)%Z -> forall l be, fin (lget (fold_left (fun s e => add_vec nv (f e) s) l be) v) ->
  fin (lget be v) /\ forall e, In e l -> fin (lget (f e) v).
Proof.
  intros Hv l. induction l as [|e l IH]; intros be Q; [split; [exact Q|intros e []]|]. cbn [fold_left] in Q. destruct (IH _ Q) as (Q1 & Q2).
  unfold add_vec in Q1. rewrite lget_ltab in Q1 by assumption. apply fin_add in Q1. destruct Q1 as (Q1 & Q3). split; [exact Q1|]. intros e' [<-|I]; [exact Q3|now apply Q2].
Qed.
Lemma ave_fin nv (s : Z -> list flt) wg v : (0 <= v < nv)%Z -> forall l be, fin (lget (fold_left (fun a g => add_ave nv (s g) wg a) l be) v) ->
  fin (lget be v) /\ forall g, In g l -> fin (lget (s g) v).
Proof.
  intros Hv l. induction l as [|e l IH]; intros be Q; [split; [exact Q|intros e []]|]. cbn [fold_left] in Q. destruct (IH _ Q) as (Q1 & Q2).
  unfold add_ave in Q1. rewrite lget_ltab in Q1 by assumption. apply fin_add in Q1. destruct Q1 as (Q1 & Q3). split; [exact Q1|]. intros e' [<-|I]; [exact (proj1 (fin_mul _ _ Q3))|now apply Q2].
Qed.
Lemma strain_fin nv nd (B : Z -> Z -> flt) d v : (0 <= v < nv)%Z -> fin (lget (strain_of nv nd B (ltab nd d)) v) -> forall i, (0 <= i < nd)%Z -> fin (d i).
Proof.
  intros Hv Q i Hi. unfold strain_of in Q. rewrite lget_ltab in Q by assumption. pose proof (sumf_fin _ _ Q i ltac:(now apply in_zrange)) as Q1.
  cbv beta in Q1. rewrite lget_ltab in Q1 by assumption. exact (proj2 (fin_mul _ _ Q1)).
Qed.
Lemma cor_surj a b c : (0 <= a <= 1)%Z -> (0 <= b <= 1)%Z -> (0 <= c <= 1)%Z -> exists k, (0 <= k < 8)%Z /\ cor_x k = a /\ cor_y k = b /\ cor_z k = c /\ (c = 0 -> k < 4)%Z.
Proof.
  intros Ha Hb Hc. assert (A : (a = 0 \/ a = 1)%Z) by lia. assert (B : (b = 0 \/ b = 1)%Z) by lia. assert (C : (c = 0 \/ c = 1)%Z) by lia.
  destruct A as [-> | ->], B as [-> | ->], C as [-> | ->];
    [exists 0%Z|exists 4%Z|exists 3%Z|exists 7%Z|exists 1%Z|exists 5%Z|exists 2%Z|exists 6%Z]; repeat split; lia.
Qed.
Section Fin.
Variables (V : env flt) (H M : R) (uf of : Z -> flt).
Hypothesis F : fair V H M.
Lemma in_a_cell3 a : v_dim V = 3%Z -> (0 <= a < ndofs V)%Z -> exists e i, In e (els3 V) /\ (0 <= i < 24)%Z /\ disp3 V uf e i = uf a.
Proof.
  intros D Ha. pose proof (fr_sane _ _ _ F) as S. destruct (dof3_split V a S D Ha) as (i & j & k & c & Hi & Hj & Hk & Hc & -> & _).
  set (ex := Z.min i (v_nx V - 2)). set (ey := Z.min j (v_ny V - 2)). set (ez := Z.min k (v_nz V - 2)).
  pose proof (sa_nx V S) as Hx. pose proof (sa_ny V S) as Hy. pose proof (sane_nz V S D) as Hz.
  destruct (cor_surj (i - ex) (j - ey) (k - ez)) as (n & Hn & Cx & Cy & Cz & _); try lia.
  exists (ex, ey, ez), (n * 3 + c)%Z. split; [apply in_els3; lia|]. split; [lia|]. unfold disp3, corner3.
  replace ((n * 3 + c) / 3)%Z with n by (rewrite Z.div_add_l, Z.div_small by lia; lia).
  replace ((n * 3 + c) mod 3)%Z with c by (rewrite Z.add_comm, Z_mod_plus_full; symmetry; apply Z.mod_small; lia).
  rewrite Cx, Cy, Cz. do 2 f_equal. f_equal. f_equal; lia.
Qed.
Lemma in_a_cell2 a : v_dim V = 2%Z -> (0 <= a < ndofs V)%Z -> exists e i, In e (els2 V) /\ (0 <= i < 8)%Z /\ disp2 V uf e i = uf a.
Proof.
  intros D Ha. pose proof (fr_sane _ _ _ F) as S. destruct (dof2_split V a S D Ha) as (i & j & c & Hi & Hj & Hc & -> & _).
  set (ex := Z.min i (v_nx V - 2)). set (ey := Z.min j (v_ny V - 2)).
  pose proof (sa_nx V S) as Hx. pose proof (sa_ny V S) as Hy.
  destruct (cor_surj (i - ex) (j - ey) 0) as (n & Hn & Cx & Cy & _ & N4); try lia. specialize (N4 eq_refl).
  exists (ex, ey), (n * 2 + c)%Z. split; [apply in_els2; lia|]. split; [lia|]. unfold disp2, corner2.
  replace ((n * 2 + c) / 2)%Z with n by (rewrite Z.div_add_l, Z.div_small by lia; lia).
  replace ((n * 2 + c) mod 2)%Z with c by (rewrite Z.add_comm, Z_mod_plus_full; symmetry; apply Z.mod_small; lia).
  rewrite Cx, Cy. do 2 f_equal. f_equal. f_equal; lia.
Qed.
Lemma area_ok : fin (area V).
Proof. exact (proj1 (proj1 (area_rl V (exact_env V) H M (fair_twin V H M F)))). Qed.
Theorem stress_fin3 v : v_dim V = 3%Z -> (0 <= v < 6)%Z -> fin (lget (ave3 V (aux3 V uf of)) v) -> forall a, (0 <= a < ndofs V)%Z -> fin (uf a).
Proof.
  intros D Hv Q a Ha. destruct (in_a_cell3 a D Ha) as (e & i & Ie & Hi & <-). unfold ave3 in Q. rewrite lget_ltab in Q by assumption.
  destruct (fin_div _ _ Q area_ok) as (Q1 & _). destruct (vec_fin 6 _ v Hv _ _ Q1) as (_ & Q2). specialize (Q2 e Ie). unfold aux3 in Q2.
  destruct (ave_fin 6 _ _ v Hv _ _ Q2) as (_ & Q3). specialize (Q3 0%Z ltac:(apply in_zrange; lia)). cbv beta in Q3. unfold sig3 in Q3.
  rewrite (fr_lin _ _ _ F D _ (ix3_range V e D Ie)) in Q3. unfold lin_stress3 in Q3. rewrite lget_ltab in Q3 by assumption.
  apply (strain_fin 6 24 (B3 V 0) (disp3 V uf e) v Hv); [|exact Hi].
  destruct (v <? 3)%Z; [apply fin_add in Q3; destruct Q3 as (_ & Q3)|]; exact (proj2 (fin_mul _ _ Q3)).
Qed.
Theorem stress_fin2 v : v_dim V = 2%Z -> (0 <= v < 3)%Z -> fin (lget (ave2 V (aux2 V uf)) v) -> forall a, (0 <= a < ndofs V)%Z -> fin (uf a).
Proof.
  intros D Hv Q a Ha. destruct (in_a_cell2 a D Ha) as (e & i & Ie & Hi & <-). unfold ave2 in Q. rewrite lget_ltab in Q by assumption.
  destruct (fin_div _ _ Q area_ok) as (Q1 & _). destruct (vec_fin 3 _ v Hv _ _ Q1) as (_ & Q2). specialize (Q2 e Ie). unfold aux2 in Q2.
  destruct (ave_fin 3 _ _ v Hv _ _ Q2) as (_ & Q3). specialize (Q3 0%Z ltac:(apply in_zrange; lia)). cbv beta in Q3. unfold sig2, stress2 in Q3.
  rewrite lget_ltab in Q3 by assumption. pose proof (sumf_fin _ _ Q3 v ltac:(apply in_zrange; lia)) as Q4. cbv beta in Q4.
  apply (strain_fin 3 8 (B2 V 0) (disp2 V uf e) v Hv); [|exact Hi]. exact (proj2 (fin_mul _ _ Q4)).
Qed.
End Fin.
