(** No [int] expression of the matrix overflows when the matrix itself can be sized. *)
From Coq Require Import ZifyBool.
From Verif Require Import Base Scalar InitTables EllModel AssemblyModel Grid IntModel.
Open Scope Z_scope.

(** ** Evaluation *)
Lemma in_int_ok z : - INT_MAX - 1 <= z <= INT_MAX -> in_int z = Some z.
Proof. intros H. unfold in_int. now replace ((- INT_MAX - 1 <=? z) && (z <=? INT_MAX)) with true by lia. Qed.
Lemma in_int_none z : INT_MAX < z -> in_int z = None.
Proof. intros H. unfold in_int. now replace ((- INT_MAX - 1 <=? z) && (z <=? INT_MAX)) with false by lia. Qed.
Definition is (e : ix) (z : Z) : Prop := ieval e = Some z.
Lemma is_V z : 0 <= z <= INT_MAX -> is (V z) z.
Proof. intros H. unfold is. cbn [ieval]. apply in_int_ok. lia. Qed.
Lemma is_A a b x y : is a x -> is b y -> - INT_MAX - 1 <= x + y <= INT_MAX -> is (A a b) (x + y).
Proof. unfold is. intros P Q H. cbn [ieval]. rewrite P, Q. cbn [ibin]. now apply in_int_ok. Qed.
Lemma is_D a b x y : is a x -> is b y -> - INT_MAX - 1 <= x - y <= INT_MAX -> is (D a b) (x - y).
Proof. unfold is. intros P Q H. cbn [ieval]. rewrite P, Q. cbn [ibin]. now apply in_int_ok. Qed.
Lemma is_M a b x y : is a x -> is b y -> - INT_MAX - 1 <= x * y <= INT_MAX -> is (M a b) (x * y).
Proof. unfold is. intros P Q H. cbn [ieval]. rewrite P, Q. cbn [ibin]. now apply in_int_ok. Qed.
Lemma is_eq e z z' : is e z -> z = z' -> is e z'.
Proof. now intros H <-. Qed.

Lemma ieach_app {X} (l l' : list (ix * X)) r r' : ieach l = Some r -> ieach l' = Some r' -> ieach (l ++ l') = Some (r ++ r').
Proof.
  revert r. induction l as [|(e, x) l IH]; intros r E E'; cbn [ieach app] in *; [injection E as <-; exact E'|].
  destruct (ieval e) as [a|]; [|discriminate]. destruct (ieach l) as [q|]; [|discriminate]. injection E as <-. now rewrite (IH q eq_refl E').
Qed.
Lemma ieach_flat {X B} (l : list B) (f : B -> list (ix * X)) g : (forall b, In b l -> ieach (f b) = Some (g b)) -> ieach (flat_map f l) = Some (flat_map g l).
Proof.
  induction l as [|b l IH]; intros H; [reflexivity|]. cbn [flat_map]. apply ieach_app; [apply H; now left|]. apply IH. intros c Hc. apply H. now right.
Qed.
Lemma ieach_map {X B} (l : list B) (f : B -> ix) (v : B -> X) g : (forall b, In b l -> is (f b) (g b)) -> ieach (map (fun b => (f b, v b)) l) = Some (map (fun b => (g b, v b)) l).
Proof.
  induction l as [|b l IH]; intros H; [reflexivity|]. cbn [map ieach]. rewrite (H b) by now left. rewrite IH; [reflexivity|]. intros c Hc. apply H. now right.
Qed.
Lemma ieach2_app l l' r r' : ieach2 l = Some r -> ieach2 l' = Some r' -> ieach2 (l ++ l') = Some (r ++ r').
Proof.
  revert r. induction l as [|((p, e), x) l IH]; intros r E E'; cbn [ieach2 app] in *; [injection E as <-; exact E'|].
  destruct (ieval p) as [a|]; [|discriminate]. destruct (ieval e) as [b|]; [|discriminate]. destruct (ieval x) as [c|]; [|discriminate].
  destruct (ieach2 l) as [q|]; [|discriminate]. injection E as <-. now rewrite (IH q eq_refl E').
Qed.
Lemma ieach2_flat {B} (l : list B) (f : B -> list (ix * ix * ix)) g : (forall b, In b l -> ieach2 (f b) = Some (g b)) -> ieach2 (flat_map f l) = Some (flat_map g l).
Proof.
  induction l as [|b l IH]; intros H; [reflexivity|]. cbn [flat_map]. apply ieach2_app; [apply H; now left|]. apply IH. intros c Hc. apply H. now right.
Qed.
Lemma ieach2_map {B} (l : list B) (p f v : B -> ix) g h w : (forall b, In b l -> is (p b) (g b) /\ is (f b) (h b) /\ is (v b) (w b)) ->
  ieach2 (map (fun b => (p b, f b, v b)) l) = Some (map (fun b => (g b + h b, w b)) l).
Proof.
  induction l as [|b l IH]; intros H; [reflexivity|]. cbn [map ieach2]. destruct (H b) as (-> & -> & ->); [now left|]. rewrite IH; [reflexivity|]. intros c Hc. apply H. now right.
Qed.
Lemma iboth_app l l' r r' : iboth l = Some r -> iboth l' = Some r' -> iboth (l ++ l') = Some (r ++ r').
Proof.
  revert r. induction l as [|(p, e) l IH]; intros r E E'; cbn [iboth app] in *; [injection E as <-; exact E'|].
  destruct (ieval p) as [a|]; [|discriminate]. destruct (ieval e) as [b|]; [|discriminate].
  destruct (iboth l) as [q|]; [|discriminate]. injection E as <-. now rewrite (IH q eq_refl E').
Qed.
Lemma iboth_flat {B} (l : list B) (f : B -> list (ix * ix)) g : (forall b, In b l -> iboth (f b) = Some (g b)) -> iboth (flat_map f l) = Some (flat_map g l).
Proof.
  induction l as [|b l IH]; intros H; [reflexivity|]. cbn [flat_map]. apply iboth_app; [apply H; now left|]. apply IH. intros c Hc. apply H. now right.
Qed.
Lemma iboth_map {B} (l : list B) (p f : B -> ix) g h : (forall b, In b l -> is (p b) (g b) /\ is (f b) (h b)) ->
  iboth (map (fun b => (p b, f b)) l) = Some (map (fun b => (g b, h b)) l).
Proof.
  induction l as [|b l IH]; intros H; [reflexivity|]. cbn [map iboth]. destruct (H b) as (-> & ->); [now left|]. rewrite IH; [reflexivity|]. intros c Hc. apply H. now right.
Qed.

(** ** Addresses in a matrix of [nn] nodes, [nF] unknowns and [nnz] entries a row *)
Section Rows.
Variables nF nnz nn : Z.
Hypothesis F1 : 1 <= nF.
Hypothesis Z1 : 9 * nF <= nnz.
Hypothesis N1 : 1 <= nn.
Hypothesis S1 : nn * nF * nnz <= INT_MAX.

Lemma b_row n : 0 <= n < nn -> 0 <= n * nF * nnz <= INT_MAX - nF * nnz.
Proof.
  intros H. assert (P : 0 <= n * nF <= (nn - 1) * nF) by nia. split; [nia|].
  assert (Q : n * nF * nnz <= (nn - 1) * nF * nnz) by (apply Z.mul_le_mono_nonneg_r; lia). nia.
Qed.
Lemma b_nFnnz : nF <= nF * nnz /\ nnz <= nF * nnz /\ nF * nnz <= INT_MAX.
Proof.
  assert (1 <= nnz) by lia. assert (nF * nnz <= nn * (nF * nnz)) by (assert (0 <= nF * nnz) by nia; nia).
  replace (nn * (nF * nnz)) with (nn * nF * nnz) in H0 by ring. repeat split; nia.
Qed.
Lemma b_nn : nn <= INT_MAX.
Proof. assert (nn <= nn * nF) by nia. assert (nn * nF <= nn * nF * nnz) by nia. lia. Qed.
Lemma b_n n : 0 <= n < nn -> 0 <= n * nF <= INT_MAX /\ n <= INT_MAX.
Proof. intros H. pose proof (b_row n H). assert (0 <= n * nF) by nia. assert (n * nF <= n * nF * nnz) by nia. pose proof b_nFnnz. assert (n <= n * nF) by nia. lia. Qed.

Lemma is_row e n d : is e n -> 0 <= n < nn -> 0 <= d < nF -> is (A (M (M e nF) nnz) (M d nnz)) (n * nF * nnz + d * nnz) /\ n * nF * nnz + d * nnz <= INT_MAX - nnz.
Proof.
  intros E Hn Hd. pose proof (b_row n Hn). pose proof (b_n n Hn). pose proof b_nFnnz. assert (0 <= d * nnz <= nF * nnz - nnz) by nia. split; [|lia].
  apply is_A; [|apply is_M; [apply is_V; lia|apply is_V; lia|lia]|lia].
  apply is_M; [apply is_M; [exact E|apply is_V; lia|lia]|apply is_V; lia|lia].
Qed.
Lemma is_slot e n d l d2 : is e n -> 0 <= n < nn -> 0 <= d < nF -> 0 <= l -> (l + 1) * nF <= nnz -> 0 <= d2 < nF ->
  is (A (A (A (M (M e nF) nnz) (M d nnz)) (M l nF)) d2) (n * nF * nnz + d * nnz + l * nF + d2).
Proof.
  intros E Hn Hd Hl Hl2 Hd2. destruct (is_row e n d E Hn Hd) as (R & B). pose proof (b_row n Hn). pose proof b_nFnnz.
  assert (0 <= d * nnz) by nia. assert (0 <= l * nF) by nia. assert (l <= l * nF) by nia.
  apply is_A; [|apply is_V; lia|lia]. apply is_A; [exact R| |lia]. apply is_M; [apply is_V; lia|apply is_V; lia|lia].
Qed.

Context {T : Type} `{OT : Ops T}.
Lemma ident_ok slot e n d : is e n -> 0 <= n < nn -> 0 <= d < nF -> 0 <= slot -> (slot + 1) * nF <= nnz ->
  ieach (i_ident (T := T) nF nnz slot e d) = Some (ident_row nF nnz slot n d).
Proof.
  intros E Hn Hd Hs Hs2. destruct (is_row e n d E Hn Hd) as (R & B). pose proof (b_row n Hn). pose proof b_nFnnz. assert (0 <= d * nnz) by nia.
  unfold i_ident, ident_row. apply ieach_app.
  - apply ieach_map. intros j Hj. apply in_zrange in Hj. apply is_A; [exact R|apply is_V; lia|lia].
  - cbn [ieach]. rewrite (is_slot e n d slot d); auto.
Qed.
Lemma zero_ok slots e n d : is e n -> 0 <= n < nn -> 0 <= d < nF -> (forall l, In l slots -> 0 <= l /\ (l + 1) * nF <= nnz) ->
  ieach (i_zero (T := T) nF nnz slots e d) = Some (zero_slots nF nnz slots n d).
Proof.
  intros E Hn Hd Hs. unfold i_zero, zero_slots. apply ieach_flat. intros l Hl. apply Hs in Hl. apply ieach_map. intros d2 H2. apply in_zrange in H2.
  apply is_slot; auto; tauto.
Qed.
End Rows.

Lemma big : 1000 <= INT_MAX. Proof. unfold INT_MAX. lia. Qed.
Lemma grow a b : 0 <= a -> 1 <= b -> a <= a * b /\ a <= b * a.
Proof. intros H1 H2. split; nia. Qed.
(** ** Sizes *)
Lemma size2_ok nF nx ny : 1 <= nF -> 2 <= nx -> 2 <= ny -> 9 * nF * (nx * ny * nF) <= INT_MAX ->
  is (i_nn2 nx ny) (nx * ny) /\ is (i_nnz2 nF) (9 * nF) /\ is (i_nrow2 nF nx ny) (nx * ny * nF) /\ is (i_size2 nF nx ny) (9 * nF * (nx * ny * nF)).
Proof.
  intros H1 H2 H3 H. assert (P : 4 <= nx * ny) by nia. pose proof (grow (nx * ny) nF). pose proof (grow nF (nx * ny)). pose proof (grow (nx * ny * nF) (9 * nF)). pose proof (grow (9 * nF) (nx * ny * nF)).
  pose proof (grow nx ny). pose proof (grow ny nx).
  assert (I1 : is (i_nn2 nx ny) (nx * ny)) by (apply is_M; try apply is_V; lia).
  assert (I2 : is (i_nnz2 nF) (9 * nF)) by (pose proof big; apply is_M; try apply is_V; lia).
  assert (I3 : is (i_nrow2 nF nx ny) (nx * ny * nF)) by (apply is_M; [exact I1|apply is_V; lia|lia]).
  repeat split; auto. apply is_M; [exact I2|exact I3|lia].
Qed.
Lemma size3_ok nF nx ny nz : 1 <= nF -> 2 <= nx -> 2 <= ny -> 2 <= nz -> 27 * nF * (nx * ny * nz * nF) <= INT_MAX ->
  is (i_nn3 nx ny nz) (nx * ny * nz) /\ is (i_nnz3 nF) (27 * nF) /\ is (i_nrow3 nF nx ny nz) (nx * ny * nz * nF) /\ is (i_size3 nF nx ny nz) (27 * nF * (nx * ny * nz * nF)).
Proof.
  intros H1 H2 H3 H4 H. assert (P : 4 <= nx * ny) by nia. pose proof (grow (nx * ny) nz). pose proof (grow nz (nx * ny)). pose proof (grow (nx * ny * nz) nF). pose proof (grow nF (nx * ny * nz)).
  pose proof (grow (nx * ny * nz * nF) (27 * nF)). pose proof (grow (27 * nF) (nx * ny * nz * nF)). pose proof (grow nx ny). pose proof (grow ny nx).
  assert (I1 : is (i_nn3 nx ny nz) (nx * ny * nz)) by (apply is_M; [apply is_M; try apply is_V; lia|apply is_V; lia|lia]).
  assert (I2 : is (i_nnz3 nF) (27 * nF)) by (pose proof big; apply is_M; try apply is_V; lia).
  assert (I3 : is (i_nrow3 nF nx ny nz) (nx * ny * nz * nF)) by (apply is_M; [exact I1|apply is_V; lia|lia]).
  repeat split; auto. apply is_M; [exact I2|exact I3|lia].
Qed.
(** the size is the expression that overflows first *)
Lemma size2_over nF nx ny : INT_MAX < 9 * nF * (nx * ny * nF) -> ieval (i_size2 nF nx ny) = None.
Proof.
  intros H. unfold i_size2, i_nnz2, i_nrow2, i_nn2. cbn [ieval].
  assert (G : forall f a b x y, (a = Some x \/ a = None) -> (b = Some y \/ b = None) -> ibin f a b = in_int (f x y) \/ ibin f a b = None).
  { intros f a b x y [->| ->] [->| ->]; cbn [ibin]; auto. }
  assert (K : forall z, in_int z = Some z \/ in_int z = None) by (intros z; unfold in_int; destruct (_ && _); auto).
  assert (G' : forall f a b x y, (a = Some x \/ a = None) -> (b = Some y \/ b = None) -> ibin f a b = Some (f x y) \/ ibin f a b = None).
  { intros f a b x y P Q. destruct (G f a b x y P Q) as [->|E]; auto. }
  edestruct (G Z.mul (ibin Z.mul (in_int 9) (in_int nF)) (ibin Z.mul (ibin Z.mul (in_int nx) (in_int ny)) (in_int nF)) (9 * nF) (nx * ny * nF)) as [->|E]; auto.
  now apply in_int_none.
Qed.
Lemma size3_over nF nx ny nz : INT_MAX < 27 * nF * (nx * ny * nz * nF) -> ieval (i_size3 nF nx ny nz) = None.
Proof.
  intros H. unfold i_size3, i_nnz3, i_nrow3, i_nn3. cbn [ieval].
  assert (G : forall f a b x y, (a = Some x \/ a = None) -> (b = Some y \/ b = None) -> ibin f a b = in_int (f x y) \/ ibin f a b = None).
  { intros f a b x y [->| ->] [->| ->]; cbn [ibin]; auto. }
  assert (K : forall z, in_int z = Some z \/ in_int z = None) by (intros z; unfold in_int; destruct (_ && _); auto).
  assert (G' : forall f a b x y, (a = Some x \/ a = None) -> (b = Some y \/ b = None) -> ibin f a b = Some (f x y) \/ ibin f a b = None).
  { intros f a b x y P Q. destruct (G f a b x y P Q) as [->|E]; auto. }
  edestruct (G Z.mul (ibin Z.mul (in_int 27) (in_int nF)) (ibin Z.mul (ibin Z.mul (ibin Z.mul (in_int nx) (in_int ny)) (in_int nz)) (in_int nF)) (27 * nF) (nx * ny * nz * nF)) as [->|E]; auto 6.
  now apply in_int_none.
Qed.

(** ** Boundary rows *)
Section Bc.
Context {T : Type} `{OT : Ops T}.
Ltac inlist := let l := fresh in let H := fresh in intros l H; cbn [In] in H; repeat (destruct H as [<-|H]; [lia|]); destruct H.
Lemma slots_range nF a b l : 1 <= nF -> 0 <= a -> In l (zrange a b) -> 0 <= l /\ (l + 1) * nF <= b * nF.
Proof. intros F H K. apply in_zrange in K. split; [lia|]. nia. Qed.
Lemma bc2D_ok nF nx ny : 1 <= nF -> 2 <= nx -> 2 <= ny -> 9 * nF * (nx * ny * nF) <= INT_MAX ->
  ieach (i_bc2D (T := T) nF (9 * nF) nx ny) = Some (bc2D_stores nF (9 * nF) nx ny).
Proof.
  intros H1 H2 H3 H. set (nn := nx * ny). assert (N1 : 4 <= nn) by (unfold nn; nia).
  assert (HS : nn * nF * (9 * nF) <= INT_MAX) by (replace (nn * nF * (9 * nF)) with (9 * nF * (nn * nF)) by ring; exact H).
  assert (Hb : nn <= INT_MAX) by (apply (b_nn nF (9 * nF) nn); lia).
  assert (Hx : nx <= nn /\ ny <= nn /\ 2 * nx <= nn /\ 2 * ny <= nn) by (clear H; unfold nn; repeat split; nia).
  assert (Erow : forall g h cnt, (forall n, 0 <= n < cnt -> is (g n) (h n) /\ 0 <= h n < nn) ->
    ieach (flat_map (fun d => flat_map (fun n => i_ident (T := T) nF (9 * nF) 4 (g n) d) (zrange 0 cnt)) (zrange 0 nF)) =
    Some (flat_map (fun d => flat_map (fun n => ident_row nF (9 * nF) 4 (h n) d) (zrange 0 cnt)) (zrange 0 nF))).
  { intros g h cnt K. apply ieach_flat. intros d Hd. apply in_zrange in Hd. apply ieach_flat. intros n Hn. apply in_zrange in Hn. destruct (K n Hn) as (K1 & K2).
    apply ident_ok with (nn := nn); auto; lia. }
  assert (Eline : forall n0 step cnt slots, (forall i, 0 <= i < cnt -> 0 <= n0 + i * step < nn) -> (forall l, In l slots -> 0 <= l /\ (l + 1) * nF <= 9 * nF) ->
    ieach (flat_map (fun d1 => flat_map (fun i => i_zero (T := T) nF (9 * nF) slots (V (n0 + i * step)) d1) (zrange 0 cnt)) (zrange 0 nF)) =
    Some (flat_map (fun d1 => flat_map (fun i => zero_slots nF (9 * nF) slots (n0 + i * step) d1) (zrange 0 cnt)) (zrange 0 nF))).
  { intros n0 step cnt slots K L. apply ieach_flat. intros d Hd. apply in_zrange in Hd. apply ieach_flat. intros n Hn. apply in_zrange in Hn. specialize (K n Hn).
    apply zero_ok with (nn := nn); auto; try lia. apply is_V. lia. }
  assert (Ecorner : forall n slots, 0 <= n < nn -> (forall l, In l slots -> 0 <= l /\ (l + 1) * nF <= 9 * nF) ->
    ieach (flat_map (fun d1 => i_zero (T := T) nF (9 * nF) slots (V n) d1) (zrange 0 nF)) =
    Some (flat_map (fun d1 => zero_slots nF (9 * nF) slots n d1) (zrange 0 nF))).
  { intros n slots K L. apply ieach_flat. intros d Hd. apply in_zrange in Hd. apply zero_ok with (nn := nn); auto; try lia. apply is_V. lia. }
  unfold i_bc2D, bc2D_stores. cbv zeta.
  assert (Y1 : (ny - 1) * nx = nn - nx) by (unfold nn; ring). assert (Y2 : (ny - 2) * nx = nn - 2 * nx) by (unfold nn; ring).
  apply ieach_app; [apply (Erow _ (fun n => n)); intros n Hn; split; [apply is_V; lia|lia]|].
  apply ieach_app; [apply (Erow _ (fun n => n + (ny - 1) * nx)); intros n Hn; split; [|lia]; apply is_A; [apply is_V; lia|apply is_M; [apply is_D; try apply is_V; pose proof big; lia|apply is_V; lia|lia]|lia]|].
  apply ieach_app; [apply (Erow _ (fun n => (n + 1) * nx)); intros n Hn|].
  { assert (0 <= (n + 1) * nx <= (ny - 1) * nx) by nia. split; [|lia]. apply is_M; [apply is_A; try apply is_V; pose proof big; lia|apply is_V; lia|lia]. }
  apply ieach_app; [apply (Erow _ (fun n => (n + 2) * nx - 1)); intros n Hn|].
  { assert (nx <= (n + 2) * nx <= nn) by (unfold nn; nia). split; [|lia]. pose proof big. apply is_D; [apply is_M; [apply is_A; try apply is_V; lia|apply is_V; lia|lia]|apply is_V; lia|lia]. }
  apply ieach_app; [apply Eline; [intros i Hi; lia|inlist]|].
  apply ieach_app; [apply Eline; [intros i Hi; lia|intros l K; apply in_map_iff in K; destruct K as (? & <- & _); lia]|].
  apply ieach_app; [apply Eline; [intros i Hi; assert (0 <= i * nx <= (ny - 5) * nx) by nia; nia|inlist]|].
  apply ieach_app; [apply Eline; [intros i Hi; assert (0 <= i * nx <= (ny - 5) * nx) by nia; nia|inlist]|].
  apply ieach_app; [apply Ecorner; [lia|inlist]|].
  apply ieach_app; [apply Ecorner; [lia|inlist]|].
  apply ieach_app; [apply Ecorner; [lia|inlist]|].
  apply Ecorner; [lia|inlist].
Qed.
Lemma vars2_ok nF nx ny : 1 <= nF -> 2 <= nx -> 2 <= ny -> 9 * nF * (nx * ny * nF) <= INT_MAX -> Forall (fun e => ieval e <> None) (i_vars2 nx ny).
Proof.
  intros H1 H2 H3 H. set (nn := nx * ny). assert (N1 : 4 <= nn) by (unfold nn; nia).
  assert (Hb : 9 * nn <= INT_MAX).
  { pose proof (grow nn nF ltac:(lia) ltac:(lia)). fold nn in H. pose proof (grow (9 * (nn * nF)) nF ltac:(lia) ltac:(lia)). replace (9 * nF * (nn * nF)) with (9 * (nn * nF) * nF) in H by ring. lia. }
  assert (Hx : nx <= nn /\ ny <= nn /\ 2 * nx <= nn /\ 2 * ny <= nn) by (clear H; unfold nn; repeat split; nia).
  assert (Y1 : (ny - 1) * nx = nn - nx) by (unfold nn; ring). assert (Y2 : (ny - 2) * nx = nn - 2 * nx) by (unfold nn; ring).
  assert (Y3 : 0 <= Z.max 0 (ny - 4) * nx <= nn) by (unfold nn; nia). pose proof big.
  assert (G : forall e z, is e z -> ieval e <> None) by (intros e z E; rewrite E; discriminate).
  unfold i_vars2. repeat constructor; eapply G.
  - apply is_A; try apply is_V; lia.
  - apply is_A; [apply is_M; [apply is_D; try apply is_V; lia|apply is_V; lia|lia]|apply is_V; lia|lia].
  - apply is_A; [apply is_M; try apply is_V; lia|apply is_V; lia|lia].
  - apply is_D; [apply is_M; try apply is_V; lia|apply is_V; lia|lia].
  - apply is_A; try apply is_V; lia.
  - apply is_D; [apply is_M; try apply is_V; lia|apply is_V; lia|lia].
  - apply is_D; [apply is_M; [apply is_D; try apply is_V; lia|apply is_V; lia|lia]|apply is_V; lia|lia].
  - apply is_A; [apply is_M; [apply is_D; try apply is_V; lia|apply is_V; lia|lia]|apply is_V; lia|lia].
  - apply is_V; lia.
  - apply is_V; lia.
  - apply is_V; lia.
  - apply is_V; lia.
  - apply is_D; try apply is_V; lia.
  - apply is_D; try apply is_V; lia.
  - apply is_D; try apply is_V; lia.
Qed.

Lemma nod_ok nx ny nz (ei ej ek : ix) i j k : is ei i -> is ej j -> is ek k -> 0 <= i < nx -> 0 <= j < ny -> 0 <= k < nz -> nx * ny * nz <= INT_MAX ->
  is (i_nod nx ny ei ej ek) (nod_index nx ny i j k) /\ 0 <= nod_index nx ny i j k < nx * ny * nz.
Proof.
  intros Ei Ej Ek Hi Hj Hk H. unfold i_nod, nod_index. assert (P : 1 <= nx * ny) by nia.
  pose proof (grow (nx * ny) nz ltac:(lia) ltac:(lia)). pose proof (grow nx ny ltac:(lia) ltac:(lia)). pose proof (grow ny nx ltac:(lia) ltac:(lia)).
  assert (K1 : 0 <= j * nx + i < nx * ny) by nia. assert (K2 : 0 <= j * nx) by nia.
  assert (K3 : 0 <= k * (nx * ny) <= (nz - 1) * (nx * ny)) by nia. assert (K3' : (nz - 1) * (nx * ny) = nx * ny * nz - nx * ny) by ring.
  assert (K4 : k * nx * ny = k * (nx * ny)) by ring. assert (K5 : 0 <= k * nx) by nia. pose proof (grow (k * nx) ny ltac:(lia) ltac:(lia)).
  split; [|lia]. apply is_A; [|exact Ei|lia]. apply is_A; [|apply is_M; [exact Ej|apply is_V; lia|lia]|lia].
  apply is_M; [apply is_M; [exact Ek|apply is_V; lia|lia]|apply is_V; lia|lia].
Qed.
Lemma bc3D_ok nF nx ny nz : 1 <= nF -> 2 <= nx -> 2 <= ny -> 2 <= nz -> 27 * nF * (nx * ny * nz * nF) <= INT_MAX ->
  ieach (i_bc3D (T := T) nF (27 * nF) nx ny nz) = Some (bc3D_stores nF (27 * nF) nx ny nz).
Proof.
  intros H1 H2 H3 H4 H. set (nn := nx * ny * nz). assert (P : 4 <= nx * ny) by nia. assert (N1 : 8 <= nn) by (unfold nn; nia).
  assert (HS : nn * nF * (27 * nF) <= INT_MAX) by (replace (nn * nF * (27 * nF)) with (27 * nF * (nn * nF)) by ring; exact H).
  assert (Hb : nn <= INT_MAX) by (apply (b_nn nF (27 * nF) nn); lia).
  pose proof (grow (nx * ny) nz ltac:(lia) ltac:(lia)). pose proof (grow nz (nx * ny) ltac:(lia) ltac:(lia)). pose proof (grow nx ny ltac:(lia) ltac:(lia)). pose proof (grow ny nx ltac:(lia) ltac:(lia)).
  assert (Hx : nx <= nn /\ ny <= nn /\ nz <= nn) by (unfold nn; lia). pose proof big.
  assert (Eface : forall (la lb : list Z) (nd : Z -> Z -> ix) (md : Z -> Z -> Z), (forall a b, In a la -> In b lb -> is (nd a b) (md a b) /\ 0 <= md a b < nn) ->
    ieach (flat_map (fun d => flat_map (fun a => flat_map (fun b => i_ident (T := T) nF (27 * nF) 13 (nd a b) d) lb) la) (zrange 0 nF)) =
    Some (flat_map (fun d => flat_map (fun a => flat_map (fun b => ident_row nF (27 * nF) 13 (md a b) d) lb) la) (zrange 0 nF))).
  { intros la lb nd md K. apply ieach_flat. intros d Hd. apply in_zrange in Hd. apply ieach_flat. intros a Ha. apply ieach_flat. intros b Hb'. destruct (K a b Ha Hb') as (K1 & K2).
    apply ident_ok with (nn := nn); auto; lia. }
  assert (Enear : forall (la lb : list Z) (nd : Z -> Z -> ix) (md : Z -> Z -> Z) slots, (forall a b, In a la -> In b lb -> is (nd a b) (md a b) /\ 0 <= md a b < nn) -> (forall l, In l slots -> 0 <= l /\ (l + 1) * nF <= 27 * nF) ->
    ieach (flat_map (fun d1 => flat_map (fun a => flat_map (fun b => i_zero (T := T) nF (27 * nF) slots (nd a b) d1) lb) la) (zrange 0 nF)) =
    Some (flat_map (fun d1 => flat_map (fun a => flat_map (fun b => zero_slots nF (27 * nF) slots (md a b) d1) lb) la) (zrange 0 nF))).
  { intros la lb nd md slots K L. apply ieach_flat. intros d Hd. apply in_zrange in Hd. apply ieach_flat. intros a Ha. apply ieach_flat. intros b Hb'. destruct (K a b Ha Hb') as (K1 & K2).
    apply zero_ok with (nn := nn); auto; lia. }
  assert (E0 : ieach (X := T) [] = Some []) by reflexivity.
  unfold i_bc3D, bc3D_stores. cbv zeta.
  Ltac nod := let a := fresh in let b := fresh in let Ha := fresh in let Hb := fresh in intros a b Ha Hb; apply in_zrange in Ha; apply in_zrange in Hb; apply nod_ok; try apply is_V; try (apply is_D; try apply is_V); lia.
  repeat (apply ieach_app; [apply Eface; nod|]).
  apply ieach_app; [destruct (Z.ltb_spec 2 nz); [apply Enear; [nod|intros l Hl; apply (slots_range nF) in Hl; lia]|exact E0]|].
  apply ieach_app; [destruct (Z.ltb_spec 2 nz); [apply Enear; [nod|intros l Hl; apply (slots_range nF) in Hl; lia]|exact E0]|].
  apply ieach_app; [destruct (Z.ltb_spec 2 ny); [apply Enear; [nod|inlist]|exact E0]|].
  apply ieach_app; [apply Enear; [nod|inlist]|].
  apply ieach_app; [destruct (Z.ltb_spec 2 nx); [apply Enear; [nod|inlist]|exact E0]|].
  destruct (Z.ltb_spec 2 nx); [apply Enear; [nod|inlist]|exact E0].
Qed.
End Bc.

(** ** Initialisation *)
Definition unit_entry (e : entry) : Prop := match e with None => True | Some (a, b, c) => -1 <= a <= 1 /\ -1 <= b <= 1 /\ -1 <= c <= 1 end.
Definition unit_entryb (e : entry) : bool :=
  match e with None => true | Some (a, b, c) => (-1 <=? a) && (a <=? 1) && (-1 <=? b) && (b <=? 1) && (-1 <=? c) && (c <=? 1) end.
Lemma unit_entryb_ok t : forallb unit_entryb t = true -> Forall unit_entry t.
Proof.
  intros H. apply Forall_forall. intros e He. rewrite forallb_forall in H. specialize (H e He). destruct e as [[[a b] c]|]; [|exact I]. cbn in *. lia.
Qed.
Lemma table2_units nx ny i : Forall unit_entry (table2D nx ny i) /\ Z.of_nat (length (table2D nx ny i)) = 9.
Proof.
  unfold table2D. repeat (match goal with |- context [if ?b then _ else _] => destruct b end; [split; [apply unit_entryb_ok; reflexivity|reflexivity]|]).
  split; [apply unit_entryb_ok; reflexivity|reflexivity].
Qed.
Lemma table3_units c t : In (c, t) t3_blocks -> Forall unit_entry t /\ Z.of_nat (length t) = 27.
Proof.
  assert (H : forallb (fun ct : (axcls * axcls * axcls) * list entry => forallb unit_entryb (snd ct) && (Z.of_nat (length (snd ct)) =? 27)) t3_blocks = true) by (vm_compute; reflexivity).
  rewrite forallb_forall in H. intros K. specialize (H _ K). cbn [snd] in H. apply andb_prop in H. destruct H as (H1 & H2). split; [now apply unit_entryb_ok|lia].
Qed.
Lemma off_ok e n c ed d m : is e n -> is ed d -> 0 <= d <= m -> - m <= n <= INT_MAX - m -> -1 <= c <= 1 -> 2 * m <= INT_MAX -> is (i_off e c ed) (n + c * d) .
Proof.
  intros E Ed Hd Hn Hc Hm. unfold i_off. destruct (Z.eqb_spec c 1) as [->|N1]; [apply is_eq with (n + d); [apply is_A; auto; lia|lia]|].
  destruct (Z.eqb_spec c (-1)) as [->|N2]; [apply is_eq with (n - d); [apply is_D; auto; lia|lia]|]. apply is_eq with n; [exact E|]. assert (c = 0) by lia. subst. lia.
Qed.
Lemma entry_ok nF nx ny nn n d2 e : 1 <= nF -> 2 <= nx -> 2 <= ny -> nx * ny <= nn -> 9 * nF * (nn * nF) <= INT_MAX -> 0 <= n < nn -> 0 <= d2 < nF -> unit_entry e ->
  is (i_entry nF nx ny n d2 e) (entry_col nF nx ny n d2 e).
Proof.
  intros H1 H2 H3 H4 H Hn Hd He. pose proof big. destruct e as [[[a b] c]|]; cbn [i_entry entry_col]; [|apply is_V; lia]. destruct He as (Ha & Hb & Hc).
  assert (P : 4 <= nx * ny) by nia. pose proof (grow nx ny ltac:(lia) ltac:(lia)). pose proof (grow ny nx ltac:(lia) ltac:(lia)).
  pose proof (grow nn nF ltac:(lia) ltac:(lia)). pose proof (grow nF nn ltac:(lia) ltac:(lia)). pose proof (grow (9 * (nn * nF)) nF ltac:(lia) ltac:(lia)). replace (9 * (nn * nF) * nF) with (9 * nF * (nn * nF)) in * by ring.
  assert (I1 : is (nx * ny)%ix (nx * ny)) by (apply is_M; try apply is_V; lia).
  assert (B1 : - nn <= c * (nx * ny) <= nn) by nia. assert (B2 : - nn <= b * nx <= nn) by nia.
  assert (J1 : is (i_off n c (nx * ny)%ix) (n + c * (nx * ny))) by (apply off_ok with (m := 3 * nn); auto; try apply is_V; lia).
  assert (J2 : is (i_off (i_off n c (nx * ny)%ix) b nx) (n + c * (nx * ny) + b * nx)) by (apply off_ok with (m := 3 * nn); auto; try apply is_V; lia).
  assert (J3 : is (i_off (i_off (i_off n c (nx * ny)%ix) b nx) a 1) (n + c * (nx * ny) + b * nx + a * 1)) by (apply off_ok with (m := 3 * nn); auto; try apply is_V; lia).
  replace (a * 1) with a in J3 by ring. set (q := n + c * (nx * ny) + b * nx + a) in *. assert (Q : - (4 * nn) <= q <= 4 * nn) by (unfold q; lia).
  assert (Q2 : - (4 * (nn * nF)) <= q * nF <= 4 * (nn * nF)) by nia.
  apply is_A; [apply is_M; [exact J3|apply is_V; lia|lia]|apply is_V; lia|lia].
Qed.
Lemma node_ok S nF nx ny nn t n : 9 <= S -> 1 <= nF -> 2 <= nx -> 2 <= ny -> nx * ny <= nn -> S * nF * (nn * nF) <= INT_MAX -> 0 <= n < nn ->
  Forall unit_entry t -> Z.of_nat (length t) = S -> ieach2 (i_init_node nF (S * nF) nx ny t n) = Some (init_node nF (S * nF) nx ny t n).
Proof.
  intros HS H1 H2 H3 H4 H Hn Ht Hl. pose proof big. set (nnz := S * nF) in *. assert (P : 4 <= nx * ny) by nia. assert (Hz : 9 * nF <= nnz) by (unfold nnz; nia).
  assert (HH : nn * nF * nnz <= INT_MAX) by (replace (nn * nF * nnz) with (nnz * (nn * nF)) by ring; exact H).
  assert (H9 : 9 * nF * (nn * nF) <= INT_MAX) by nia.
  pose proof (b_row nF nnz nn H1 Hz ltac:(lia) HH n Hn). pose proof (b_n nF nnz nn H1 Hz ltac:(lia) HH n Hn). pose proof (b_nFnnz nF nnz nn H1 Hz ltac:(lia) HH).
  unfold i_init_node, init_node. rewrite Hl. apply ieach2_flat. intros d1 Hd1. apply in_zrange in Hd1. apply ieach2_flat. intros d2 Hd2. apply in_zrange in Hd2.
  apply ieach2_map with (g := fun _ => n * nF * nnz) (h := fun se => fst se * nF + nnz * d1 + d2) (w := fun se => entry_col nF nx ny n d2 (snd se)).
  intros (s, e) He. cbn [fst snd]. pose proof (in_combine_l _ _ _ _ He) as Hs. pose proof (in_combine_r _ _ _ _ He) as Hee. apply in_zrange in Hs.
  split; [|split].
  - apply is_M; [apply is_M; try apply is_V; lia|apply is_V; lia|lia].
  - assert (0 <= s * nF <= nnz - nF) by (unfold nnz; nia). assert (0 <= nnz * d1 <= nF * nnz - nnz) by nia. pose proof (grow s nF ltac:(lia) ltac:(lia)).
    apply is_A; [apply is_A; [apply is_M; try apply is_V; lia|apply is_M; try apply is_V; lia|lia]|apply is_V; lia|lia].
  - apply entry_ok with (nn := nn); auto. eapply Forall_forall; eauto.
Qed.
Lemma init2D_ok nF nx ny : 1 <= nF -> 2 <= nx -> 2 <= ny -> 9 * nF * (nx * ny * nF) <= INT_MAX -> ieach2 (i_init2D nF nx ny) = Some (init2D_stores nF nx ny).
Proof.
  intros H1 H2 H3 H. unfold i_init2D, init2D_stores. apply ieach2_flat. intros i Hi. apply in_zrange in Hi. destruct (table2_units nx ny i) as (U & L).
  apply node_ok with (nn := nx * ny); auto; lia.
Qed.
Lemma tests2_ok nF nx ny i : 1 <= nF -> 2 <= nx -> 2 <= ny -> 9 * nF * (nx * ny * nF) <= INT_MAX -> 0 <= i < nx * ny -> Forall (fun e => ieval e <> None) (i_tests2 nx ny i).
Proof.
  intros H1 H2 H3 H Hi. destruct (size2_ok nF nx ny H1 H2 H3 H) as (I1 & _). pose proof big. assert (P : 4 <= nx * ny) by nia.
  pose proof (grow nx ny ltac:(lia) ltac:(lia)). pose proof (grow ny nx ltac:(lia) ltac:(lia)).
  assert (B : 9 * (nx * ny) <= INT_MAX).
  { pose proof (grow (nx * ny) nF ltac:(lia) ltac:(lia)). pose proof (grow (9 * (nx * ny * nF)) nF ltac:(lia) ltac:(lia)). replace (9 * nF * (nx * ny * nF)) with (9 * (nx * ny * nF) * nF) in H by ring. lia. }
  assert (G : forall e z, is e z -> ieval e <> None) by (intros e z E; rewrite E; discriminate). assert (Y1 : (ny - 1) * nx = nx * ny - nx) by ring.
  unfold i_tests2. repeat constructor; eapply G.
  - apply is_D; try apply is_V; lia.
  - apply is_D; [exact I1|apply is_V; lia|lia].
  - apply is_M; [apply is_D; try apply is_V; lia|apply is_V; lia|lia].
  - apply is_A; try apply is_V; lia.
Qed.
Lemma ax_range_in c n i : 2 <= n -> In i (ax_range c n) -> 0 <= i < n.
Proof. destruct c; cbn [ax_range]; intros Hn H; [destruct H as [<-|[]]; lia|apply in_zrange in H; lia|destruct H as [<-|[]]; lia]. Qed.
Lemma init3D_ok nF nx ny nz : 1 <= nF -> 2 <= nx -> 2 <= ny -> 2 <= nz -> 27 * nF * (nx * ny * nz * nF) <= INT_MAX -> ieach2 (i_init3D nF nx ny nz) = Some (init3D_stores nF nx ny nz).
Proof.
  intros H1 H2 H3 H4 H. assert (P : 4 <= nx * ny) by nia. pose proof (grow (nx * ny) nz ltac:(lia) ltac:(lia)).
  assert (B : nx * ny * nz <= INT_MAX) by (apply (b_nn nF (27 * nF) (nx * ny * nz)); try lia; replace (nx * ny * nz * nF * (27 * nF)) with (27 * nF * (nx * ny * nz * nF)) by ring; exact H).
  unfold i_init3D, init3D_stores. apply ieach2_flat. intros (((cx, cy), cz), t) Hb. destruct (table3_units _ _ Hb) as (U & L).
  apply ieach2_flat. intros i Hi. apply ieach2_flat. intros j Hj. apply ieach2_flat. intros k Hk.
  apply ax_range_in in Hi; [|lia]. apply ax_range_in in Hj; [|lia]. apply ax_range_in in Hk; [|lia].
  apply node_ok with (nn := nx * ny * nz); auto; try lia.
  destruct (nod_ok nx ny nz (V i) (V j) (V k) i j k) as (_ & K); auto; try apply is_V; try lia; nia.
Qed.

(** ** Reset, product and diagonal *)
Lemma slot_ok nnz nrow i j : 1 <= nnz -> nnz * nrow <= INT_MAX -> 0 <= i < nrow -> 0 <= j < nnz -> is (i_slot nnz i j) (i * nnz + j).
Proof.
  intros H1 H Hi Hj. assert (0 <= i * nnz <= nrow * nnz - nnz) by nia. pose proof (grow nnz nrow ltac:(lia) ltac:(lia)). pose proof (grow nrow nnz ltac:(lia) ltac:(lia)).
  apply is_A; [apply is_M; try apply is_V; lia|apply is_V; lia|lia].
Qed.
Lemma diag_ok nF nnz nn slot i d : 1 <= nF -> 9 * nF <= nnz -> nn * nF * nnz <= INT_MAX -> 0 <= slot -> (slot + 1) * nF <= nnz -> 0 <= i < nn -> 0 <= d < nF ->
  is (fst (i_diag nF nnz slot i d)) (i * nF * nnz + slot * nF + d * nnz + d) /\ is (snd (i_diag nF nnz slot i d)) (i * nF + d).
Proof.
  intros H1 H2 H3 Hs Hs2 Hi Hd. pose proof (b_row nF nnz nn H1 H2 ltac:(lia) H3 i Hi). pose proof (b_n nF nnz nn H1 H2 ltac:(lia) H3 i Hi). pose proof (b_nFnnz nF nnz nn H1 H2 ltac:(lia) H3).
  assert (0 <= d * nnz <= nF * nnz - nnz) by nia. assert (0 <= slot * nF) by nia. pose proof (grow slot nF ltac:(lia) ltac:(lia)).
  assert (i * nF <= i * nF * nnz) by nia. unfold i_diag. cbn [fst snd]. split.
  - apply is_A; [|apply is_V; lia|lia]. apply is_A; [|apply is_M; try apply is_V; lia|lia]. apply is_A; [|apply is_M; try apply is_V; lia|lia].
    apply is_M; [apply is_M; try apply is_V; lia|apply is_V; lia|lia].
  - apply is_A; [apply is_M; try apply is_V; lia|apply is_V; lia|lia].
Qed.

(** ** Assembly *)
Section Add.
Context {T : Type} `{OT : Ops T}.
Lemma map_flat {B C E} (f : C -> E) (g : B -> list C) l : map f (flat_map g l) = flat_map (fun x => map f (g x)) l.
Proof. induction l as [|b l IH]; [reflexivity|]. cbn [flat_map]. now rewrite map_app, IH. Qed.
Lemma add_ok npe S nF nn cr sn zn (Ae : Z -> T) : 4 <= npe -> npe * npe <= S * nn -> 9 <= S -> 1 <= nF -> 1 <= nn -> S * nF * (nn * nF) <= INT_MAX ->
  (forall k, 0 <= k < npe -> is (inth sn k) (znth zn k) /\ 0 <= znth zn k < nn) ->
  (forall k n, 0 <= k < npe -> 0 <= n < npe -> 0 <= zznth cr k n < S) ->
  exists l, iboth (i_add npe nF (S * nF) cr sn) = Some l /\ add_struct npe nF (S * nF) cr zn Ae = map (fun p => (fst p, Ae (snd p))) l.
Proof.
  intros Hp Hpp HS HF Hn H Hsn Hcr. set (nnz := S * nF) in *. assert (Hz : 9 * nF <= nnz) by (unfold nnz; nia).
  assert (HH : nn * nF * nnz <= INT_MAX) by (replace (nn * nF * nnz) with (nnz * (nn * nF)) by ring; exact H).
  pose proof (b_nFnnz nF nnz nn HF Hz Hn HH).
  assert (Q : npe * npe * (nF * nF) <= INT_MAX) by (replace (nnz * (nn * nF)) with (S * nn * (nF * nF)) in H by (unfold nnz; ring); assert (0 <= nF * nF) by nia; nia).
  exists (flat_map (fun i => flat_map (fun n => flat_map (fun k => map (fun j =>
      (znth zn k * (nF * nnz) + i * nnz + zznth cr k n * nF + j, k * (npe * nF * nF) + i * (npe * nF) + n * nF + j))
    (zrange 0 nF)) (zrange 0 npe)) (zrange 0 npe)) (zrange 0 nF)). split.
  - unfold i_add. apply iboth_flat. intros i Hi. apply in_zrange in Hi. apply iboth_flat. intros n Hn'. apply in_zrange in Hn'.
    apply iboth_flat. intros k Hk. apply in_zrange in Hk.
    apply iboth_map with (g := fun j => znth zn k * (nF * nnz) + i * nnz + zznth cr k n * nF + j) (h := fun j => k * (npe * nF * nF) + i * (npe * nF) + n * nF + j).
    intros j Hj. apply in_zrange in Hj. destruct (Hsn k Hk) as (E & Es). specialize (Hcr k n Hk Hn'). set (s := znth zn k) in *. set (c := zznth cr k n) in *.
    pose proof (b_row nF nnz nn HF Hz Hn HH s Es). replace (s * nF * nnz) with (s * (nF * nnz)) in * by ring.
    assert (0 <= i * nnz <= nF * nnz - nnz) by nia. assert (0 <= c * nF <= nnz - nF) by (unfold nnz; nia). pose proof (grow c nF ltac:(lia) ltac:(lia)).
    split.
    + apply is_A; [|apply is_V; lia|lia]. apply is_A; [|apply is_M; try apply is_V; lia|lia]. apply is_A; [|apply is_M; try apply is_V; lia|lia].
      apply is_M; [exact E|apply is_M; try apply is_V; lia|lia].
    + set (g := npe * nF) in *. assert (Gg : nF <= g /\ npe <= g) by (pose proof (grow nF npe ltac:(lia) ltac:(lia)); pose proof (grow npe nF ltac:(lia) ltac:(lia)); unfold g; lia).
      pose proof (grow g nF ltac:(lia) ltac:(lia)) as Gh. set (h := g * nF) in *. pose proof (grow h npe ltac:(lia) ltac:(lia)) as Gq.
      replace (npe * npe * (nF * nF)) with (h * npe) in Q by (unfold h, g; ring). set (q := h * npe) in *.
      assert (K1 : 0 <= k * h <= q - h) by (unfold q; clear - Hk Gh Gg HF; nia).
      assert (K2 : 0 <= i * g <= h - g) by (unfold h; clear - Hi Gg HF; nia). assert (K3 : 0 <= n * nF <= g - nF) by (unfold g; clear - Hn' HF; nia).
      apply is_A; [|apply is_V; lia|lia]. apply is_A; [|apply is_M; try apply is_V; lia|lia].
      apply is_A; [|apply is_M; [apply is_V; lia|apply is_M; try apply is_V; lia|lia]|lia].
      apply is_M; [apply is_V; lia|apply is_M; [apply is_M; try apply is_V; fold g; lia|apply is_V; lia|fold g h; lia]|fold g h; lia].
  - unfold add_struct. rewrite map_flat. apply flat_map_ext. intros i. rewrite map_flat. apply flat_map_ext. intros n. rewrite map_flat. apply flat_map_ext. intros k.
    rewrite map_map. apply map_ext. intros j. reflexivity.
Qed.
End Add.
Section Add2.
Context {T : Type} `{OT : Ops T}.
Lemma cr_range cr S npe : forallb (fun r => forallb (fun c => (0 <=? c) && (c <? S)) r && (Z.of_nat (length r) =? npe)) cr = true -> Z.of_nat (length cr) = npe ->
  forall k n, 0 <= k < npe -> 0 <= n < npe -> 0 <= zznth cr k n < S.
Proof.
  intros H L k n Hk Hn. rewrite forallb_forall in H. unfold zznth, znth. assert (I : In (nth (Z.to_nat k) cr []) cr) by (apply nth_In; lia). specialize (H _ I).
  apply andb_prop in H. destruct H as (H1 & H2). rewrite forallb_forall in H1. set (r := nth (Z.to_nat k) cr []) in *.
  assert (J : In (nth (Z.to_nat n) r 0) r) by (apply nth_In; lia). specialize (H1 _ J). lia.
Qed.
Lemma add2D_ok nF nx ny ex ey (Ae : Z -> T) : 1 <= nF -> 2 <= nx -> 2 <= ny -> 9 * nF * (nx * ny * nF) <= INT_MAX -> 0 <= ex < nx - 1 -> 0 <= ey < ny - 1 ->
  exists l, iboth (i_add 4 nF (9 * nF) cols_row2 (i_sn2 nx ex ey)) = Some l /\ add_struct 4 nF (9 * nF) cols_row2 (sn2 nx ex ey) Ae = map (fun p => (fst p, Ae (snd p))) l.
Proof.
  intros H1 H2 H3 H Hx Hy. pose proof big. assert (P : 4 <= nx * ny) by nia. pose proof (grow nx ny ltac:(lia) ltac:(lia)). pose proof (grow ny nx ltac:(lia) ltac:(lia)).
  assert (B : nx * ny <= INT_MAX) by (apply (b_nn nF (9 * nF) (nx * ny)); try lia; replace (nx * ny * nF * (9 * nF)) with (9 * nF * (nx * ny * nF)) by ring; exact H).
  apply add_ok with (nn := nx * ny); try lia; [|apply cr_range; reflexivity].
  assert (K : 0 <= ey * nx <= nx * ny - 2 * nx) by nia. assert (K2 : (ey + 1) * nx = ey * nx + nx) by ring.
  assert (J0 : is (ey * nx)%ix (ey * nx)) by (apply is_M; try apply is_V; lia).
  assert (J1 : is ((ey + 1) * nx)%ix ((ey + 1) * nx)) by (apply is_M; [apply is_A; try apply is_V; lia|apply is_V; lia|lia]).
  intros k Hk. assert (C : k = 0 \/ k = 1 \/ k = 2 \/ k = 3) by lia. unfold inth, znth. unfold i_sn2, sn2. destruct C as [->|[->|[->| ->]]];
    [change (Z.to_nat 0) with 0%nat|change (Z.to_nat 1) with 1%nat|change (Z.to_nat 2) with 2%nat|change (Z.to_nat 3) with 3%nat]; cbn [nth].
  - split; [apply is_A; [exact J0|apply is_V; lia|lia]|lia].
  - split; [apply is_A; [apply is_A; [exact J0|apply is_V; lia|lia]|apply is_V; lia|lia]|lia].
  - split; [apply is_A; [apply is_A; [exact J1|apply is_V; lia|lia]|apply is_V; lia|lia]|lia].
  - split; [apply is_A; [exact J1|apply is_V; lia|lia]|lia].
Qed.
Lemma add3D_ok nF nx ny nz ex ey ez (Ae : Z -> T) : 1 <= nF -> 2 <= nx -> 2 <= ny -> 2 <= nz -> 27 * nF * (nx * ny * nz * nF) <= INT_MAX ->
  0 <= ex < nx - 1 -> 0 <= ey < ny - 1 -> 0 <= ez < nz - 1 ->
  exists l, iboth (i_add 8 nF (27 * nF) cols_row3 (i_sn3 nx ny ex ey ez)) = Some l /\ add_struct 8 nF (27 * nF) cols_row3 (sn3 nx ny ex ey ez) Ae = map (fun p => (fst p, Ae (snd p))) l.
Proof.
  intros H1 H2 H3 H4 H Hx Hy Hz. pose proof big. assert (P : 4 <= nx * ny) by nia. pose proof (grow nx ny ltac:(lia) ltac:(lia)). pose proof (grow ny nx ltac:(lia) ltac:(lia)).
  set (p := nx * ny) in *. assert (P8 : 8 <= p * nz) by nia. pose proof (grow nz p ltac:(lia) ltac:(lia)).
  assert (B : p * nz <= INT_MAX) by (apply (b_nn nF (27 * nF) (p * nz)); try lia; replace (p * nz * nF * (27 * nF)) with (27 * nF * (p * nz * nF)) by ring; exact H).
  apply add_ok with (nn := p * nz); try lia; [|apply cr_range; reflexivity].
  assert (K : 0 <= ey * nx <= p - 2 * nx) by (unfold p; nia). assert (K2 : (ey + 1) * nx = ey * nx + nx) by ring.
  assert (K3 : 0 <= ez * p <= p * nz - 2 * p) by nia.
  assert (J0 : is (ey * nx)%ix (ey * nx)) by (apply is_M; try apply is_V; lia).
  assert (J1 : is ((ey + 1) * nx)%ix ((ey + 1) * nx)) by (apply is_M; [apply is_A; try apply is_V; lia|apply is_V; lia|lia]).
  assert (Jp : is (nx * ny)%ix (nx * ny)) by (apply is_M; try apply is_V; fold p; lia).
  assert (Jz : is (V ez * (nx * ny))%ix (ez * (nx * ny))) by (apply is_M; [apply is_V; lia|exact Jp|fold p; lia]).
  assert (N0 : is (V ez * (nx * ny) + ey * nx + ex)%ix (ez * (nx * ny) + ey * nx + ex)) by (apply is_A; [apply is_A; [exact Jz|exact J0|fold p; lia]|apply is_V; lia|fold p; lia]).
  assert (N1 : is (V ez * (nx * ny) + ey * nx + ex + 1)%ix (ez * (nx * ny) + ey * nx + ex + 1)) by (apply is_A; [exact N0|apply is_V; lia|fold p; lia]).
  assert (N3 : is (V ez * (nx * ny) + (ey + 1) * nx + ex)%ix (ez * (nx * ny) + (ey + 1) * nx + ex)) by (apply is_A; [apply is_A; [exact Jz|exact J1|fold p; lia]|apply is_V; lia|fold p; lia]).
  assert (N2 : is (V ez * (nx * ny) + (ey + 1) * nx + ex + 1)%ix (ez * (nx * ny) + (ey + 1) * nx + ex + 1)) by (apply is_A; [exact N3|apply is_V; lia|fold p; lia]).
  intros k Hk. assert (C : k = 0 \/ k = 1 \/ k = 2 \/ k = 3 \/ k = 4 \/ k = 5 \/ k = 6 \/ k = 7) by lia. unfold inth, znth.
  unfold i_sn3, sn3. cbv zeta. destruct C as [->|[->|[->|[->|[->|[->|[->| ->]]]]]]];
    [change (Z.to_nat 0) with 0%nat|change (Z.to_nat 1) with 1%nat|change (Z.to_nat 2) with 2%nat|change (Z.to_nat 3) with 3%nat|change (Z.to_nat 4) with 4%nat|change (Z.to_nat 5) with 5%nat|change (Z.to_nat 6) with 6%nat|change (Z.to_nat 7) with 7%nat]; cbn [nth].
  - split; [exact N0|fold p; lia].
  - split; [exact N1|fold p; lia].
  - split; [exact N2|fold p; lia].
  - split; [exact N3|fold p; lia].
  - split; [apply is_A; [exact N0|exact Jp|fold p; lia]|fold p; lia].
  - split; [apply is_A; [exact N1|exact Jp|fold p; lia]|fold p; lia].
  - split; [apply is_A; [exact N2|exact Jp|fold p; lia]|fold p; lia].
  - split; [apply is_A; [exact N3|exact Jp|fold p; lia]|fold p; lia].
Qed.
End Add2.

(** ** The class *)
Lemma nelem3_ok nx ny nz : 2 <= nx -> 2 <= ny -> 2 <= nz -> nx * ny * nz <= INT_MAX ->
  is (i_nelem 3 nx ny nz) ((nx - 1) * (ny - 1) * (nz - 1)) /\ 1 <= (nx - 1) * (ny - 1) * (nz - 1) <= nx * ny * nz.
Proof.
  intros H1 H2 H3 H. pose proof big. assert (P : 1 <= (nx - 1) * (ny - 1) <= nx * ny) by nia. assert (Q : 1 <= (nx - 1) * (ny - 1) * (nz - 1) <= nx * ny * nz) by nia.
  pose proof (grow (nx * ny) nz ltac:(lia) ltac:(lia)). pose proof (grow nz (nx * ny) ltac:(lia) ltac:(lia)). pose proof (grow nx ny ltac:(lia) ltac:(lia)). pose proof (grow ny nx ltac:(lia) ltac:(lia)).
  split; [|exact Q]. unfold i_nelem. cbn [Z.eqb Pos.eqb].
  apply is_M; [apply is_M; [apply is_D; try apply is_V; lia|apply is_D; try apply is_V; lia|lia]|apply is_D; try apply is_V; lia|lia].
Qed.
Lemma nelem2_ok nx ny nz : 2 <= nx -> 2 <= ny -> nx * ny <= INT_MAX ->
  is (i_nelem 2 nx ny nz) ((nx - 1) * (ny - 1)) /\ 1 <= (nx - 1) * (ny - 1) <= nx * ny.
Proof.
  intros H1 H2 H. pose proof big. assert (P : 1 <= (nx - 1) * (ny - 1) <= nx * ny) by nia. pose proof (grow nx ny ltac:(lia) ltac:(lia)). pose proof (grow ny nx ltac:(lia) ltac:(lia)).
  split; [|exact P]. unfold i_nelem. cbn [Z.eqb Pos.eqb]. apply is_M; [apply is_D; try apply is_V; lia|apply is_D; try apply is_V; lia|lia].
Qed.
Lemma glo_ok nx ny nz ex ey ez : 2 <= nx -> 2 <= ny -> 1 <= nz -> nx * ny * nz <= INT_MAX -> 0 <= ex < nx - 1 -> 0 <= ey < ny - 1 -> 0 <= ez < Z.max 1 (nz - 1) ->
  is (i_glo_elem nx ny ex ey ez) (ez * (nx - 1) * (ny - 1) + ey * (nx - 1) + ex) /\
  0 <= ez * (nx - 1) * (ny - 1) + ey * (nx - 1) + ex < (nx - 1) * (ny - 1) * Z.max 1 (nz - 1).
Proof.
  intros H1 H2 H3 H Hx Hy Hz. pose proof big. assert (P : 1 <= nx * ny) by nia. pose proof (grow (nx * ny) nz ltac:(lia) ltac:(lia)). pose proof (grow nz (nx * ny) ltac:(lia) ltac:(lia)).
  pose proof (grow nx ny ltac:(lia) ltac:(lia)). pose proof (grow ny nx ltac:(lia) ltac:(lia)).
  assert (Q : 1 <= (nx - 1) * (ny - 1) <= nx * ny) by nia. set (a := nx - 1) in *. set (b := ny - 1) in *. set (m := Z.max 1 (nz - 1)) in *.
  assert (R : a * b * m <= nx * ny * nz) by (apply Z.mul_le_mono_nonneg; unfold m; lia).
  assert (K1 : 0 <= ey * a <= a * b - a) by (clear - Hx Hy; nia). assert (K2 : 0 <= ez * (a * b) <= a * b * m - a * b) by (clear - Hz Q; nia). assert (K3 : ez * a * b = ez * (a * b)) by ring.
  assert (K4 : 0 <= ez * a) by (clear - Hz Hx; nia). pose proof (grow (ez * a) b ltac:(lia) ltac:(lia)).
  split; [|lia]. apply is_A; [|apply is_V; lia|lia]. apply is_A; [|apply is_M; [apply is_V; lia|apply is_D; try apply is_V; lia|fold a; lia]|fold a; lia].
  apply is_M; [apply is_M; [apply is_V; lia|apply is_D; try apply is_V; lia|fold a; lia]|apply is_D; try apply is_V; lia|fold a b; lia].
Qed.
Lemma intvar_ok ne e g v : 56 * ne <= INT_MAX -> 0 <= e < ne -> 0 <= g < 8 -> 0 <= v < 7 -> is (i_intvar e g v) (e * 8 * 7 + g * 7 + v).
Proof.
  intros H He Hg Hv. pose proof big. apply is_A; [|apply is_V; lia|lia]. apply is_A; [|apply is_M; try apply is_V; lia|lia]. apply is_M; [apply is_M; try apply is_V; lia|apply is_V; lia|lia].
Qed.
Lemma dof_ok dim nn e n d : 1 <= dim -> nn * dim <= INT_MAX -> is e n -> 0 <= n < nn -> 0 <= d < dim -> is (i_dof dim e d) (n * dim + d).
Proof. intros H1 H E Hn Hd. assert (0 <= n * dim <= nn * dim - dim) by nia. apply is_A; [apply is_M; [exact E|apply is_V; lia|lia]|apply is_V; lia|lia]. Qed.
Lemma mul_ok e z k : is e z -> 0 <= k <= INT_MAX -> 0 <= z * k <= INT_MAX -> is (M e k) (z * k).
Proof. intros E Hk H. apply is_M; [exact E|apply is_V; lia|lia]. Qed.

(** everything the class sizes and addresses, 3D *)
Lemma class3_ok nx ny nz : 2 <= nx -> 2 <= ny -> 2 <= nz -> 27 * 3 * (nx * ny * nz * 3) <= INT_MAX ->
  let ne := (nx - 1) * (ny - 1) * (nz - 1) in
  is (i_ndofs 3 nx ny nz) (nx * ny * nz * 3) /\ is (i_fields 3 nx ny nz) (ne * 6) /\ is (i_num_int_vars 3 nx ny nz) (ne * 8 * 7) /\
  (forall ex ey ez, 0 <= ex < nx - 1 -> 0 <= ey < ny - 1 -> 0 <= ez < nz - 1 ->
     is (i_glo_elem nx ny ex ey ez) (ez * (nx - 1) * (ny - 1) + ey * (nx - 1) + ex)) /\
  (forall e g v, 0 <= e < ne -> 0 <= g < 8 -> 0 <= v < 7 -> is (i_intvar e g v) (e * 8 * 7 + g * 7 + v)) /\
  (forall n d, 0 <= n < nx * ny * nz -> 0 <= d < 3 -> is (i_dof 3 n d) (n * 3 + d)) /\
  (forall e v, 0 <= e < ne -> 0 <= v < 6 -> is (i_dof 6 e v) (e * 6 + v)).
Proof.
  intros H1 H2 H3 H. pose proof big. set (nn := nx * ny * nz) in *. assert (B : nn <= INT_MAX) by lia. destruct (nelem3_ok nx ny nz H1 H2 H3 B) as (E & Q). fold nn in Q. cbv zeta.
  set (ne := (nx - 1) * (ny - 1) * (nz - 1)) in *.
  assert (Hz : Z.max 1 (nz - 1) = nz - 1) by lia.
  assert (Nn : is (i_nn3 nx ny nz) nn) by (apply (size3_ok 1); lia).
  split; [|split; [|split; [|split; [|split; [|split]]]]].
  - apply mul_ok; [exact Nn|lia|lia].
  - unfold i_fields. cbn [Z.eqb Pos.eqb]. apply mul_ok; [exact E|lia|lia].
  - apply mul_ok; [apply mul_ok; [exact E|lia|lia]|lia|lia].
  - intros ex ey ez Hx Hy Hzz. refine (proj1 (glo_ok nx ny nz ex ey ez H1 H2 _ B Hx Hy _)); lia.
  - intros e g v He. apply (intvar_ok ne); lia.
  - intros n d Hn Hd. apply dof_ok with (nn := nn); try lia. apply is_V. lia.
  - intros n d Hn Hd. apply dof_ok with (nn := ne); try lia. apply is_V. lia.
Qed.
(** 2D: the internal variables need a bound of their own *)
Lemma class2_ok nx ny : 2 <= nx -> 2 <= ny -> 9 * 2 * (nx * ny * 2) <= INT_MAX ->
  let ne := (nx - 1) * (ny - 1) in
  is (i_ndofs 2 nx ny 1) (nx * ny * 1 * 2) /\ is (i_fields 2 nx ny 1) (ne * 3) /\
  (forall ex ey, 0 <= ex < nx - 1 -> 0 <= ey < ny - 1 -> is (i_glo_elem nx ny ex ey 0) (0 * (nx - 1) * (ny - 1) + ey * (nx - 1) + ex)) /\
  (forall n d, 0 <= n < nx * ny -> 0 <= d < 2 -> is (i_dof 2 n d) (n * 2 + d)) /\
  (forall e v, 0 <= e < ne -> 0 <= v < 3 -> is (i_dof 3 e v) (e * 3 + v)) /\
  (56 * ne <= INT_MAX -> is (i_num_int_vars 2 nx ny 1) (ne * 8 * 7) /\ forall e g v, 0 <= e < ne -> 0 <= g < 8 -> 0 <= v < 7 -> is (i_intvar e g v) (e * 8 * 7 + g * 7 + v)) /\
  (INT_MAX < 56 * ne -> ieval (i_num_int_vars 2 nx ny 1) = None).
Proof.
  intros H1 H2 H. pose proof big. set (nn := nx * ny) in *. assert (B : nn <= INT_MAX) by lia. destruct (nelem2_ok nx ny 1 H1 H2 B) as (E & Q). fold nn in Q. cbv zeta.
  set (ne := (nx - 1) * (ny - 1)) in *.
  assert (Nn2 : is (i_nn2 nx ny) nn) by (apply (size2_ok 1); lia).
  assert (Nn : is (i_nn3 nx ny 1) (nn * 1)) by (apply is_M; [exact Nn2|apply is_V; lia|lia]).
  split; [|split; [|split; [|split; [|split; [|split]]]]].
  - apply mul_ok; [exact Nn|lia|lia].
  - unfold i_fields. cbn [Z.eqb Pos.eqb]. apply mul_ok; [exact E|lia|lia].
  - intros ex ey Hx Hy. refine (proj1 (glo_ok nx ny 1 ex ey 0 H1 H2 _ _ Hx Hy _)); [lia|fold nn; lia|lia].
  - intros n d Hn Hd. apply dof_ok with (nn := nn); try lia. apply is_V. lia.
  - intros n d Hn Hd. apply dof_ok with (nn := ne); try lia. apply is_V. lia.
  - intros Hv. split; [apply mul_ok; [apply mul_ok; [exact E|lia|lia]|lia|lia]|]. intros e g v He. apply (intvar_ok ne); lia.
  - intros Hv. unfold i_num_int_vars. cbn [ieval]. rewrite E. unfold in_int at 1. cbn [andb Z.leb]. change ((- INT_MAX - 1 <=? 8) && (8 <=? INT_MAX)) with true. cbn iota. cbn [ibin].
    destruct (in_int (ne * 8)) as [z|] eqn:Ez; [|reflexivity]. assert (z = ne * 8) by (unfold in_int in Ez; destruct (_ && _); now inversion Ez). subst z.
    change (in_int 7) with (Some 7). cbn [ibin]. apply in_int_none. lia.
Qed.
Lemma over2_ex : 9 * 2 * (7000 * 7000 * 2) <= INT_MAX /\ INT_MAX < 56 * ((7000 - 1) * (7000 - 1)).
Proof. unfold INT_MAX. lia. Qed.
Lemma over2 : exists nx ny, 2 <= nx /\ 2 <= ny /\ ieval (i_size2 2 nx ny) = Some (9 * 2 * (nx * ny * 2)) /\ ieval (i_num_int_vars 2 nx ny 1) = None.
Proof. exists 7000, 7000. destruct over2_ex as (A1 & A2). split; [lia|]. split; [lia|]. split; [apply (size2_ok 2 7000 7000); [lia|lia|lia|exact A1]|]. apply (class2_ok 7000 7000); [lia|lia|exact A1|exact A2]. Qed.
Lemma fits_ex : 9 * 2 * (1000 * 1000 * 2) <= INT_MAX /\ 27 * 3 * (200 * 200 * 200 * 3) <= INT_MAX.
Proof. unfold INT_MAX. lia. Qed.
Lemma sizes_over nF nx ny nz : (INT_MAX < 9 * nF * (nx * ny * nF) -> ieval (i_size2 nF nx ny) = None) /\ (INT_MAX < 27 * nF * (nx * ny * nz * nF) -> ieval (i_size3 nF nx ny nz) = None).
Proof. split; [apply size2_over|apply size3_over]. Qed.
Lemma matrix2_ok T (OT : Ops T) nF nx ny : 1 <= nF -> 2 <= nx -> 2 <= ny -> 9 * nF * (nx * ny * nF) <= INT_MAX ->
  is (i_nn2 nx ny) (nx * ny) /\ is (i_nrow2 nF nx ny) (nx * ny * nF) /\ is (i_size2 nF nx ny) (9 * nF * (nx * ny * nF)) /\
  ieach2 (i_init2D nF nx ny) = Some (init2D_stores nF nx ny) /\
  (forall i, 0 <= i < nx * ny -> Forall (fun e => ieval e <> None) (i_tests2 nx ny i)) /\
  (forall i j, 0 <= i < nx * ny * nF -> 0 <= j < 9 * nF -> is (i_slot (9 * nF) i j) (i * (9 * nF) + j)) /\
  (forall ex ey (Ae : Z -> T), 0 <= ex < nx - 1 -> 0 <= ey < ny - 1 ->
     exists l, iboth (i_add 4 nF (9 * nF) cols_row2 (i_sn2 nx ex ey)) = Some l /\
               add_struct 4 nF (9 * nF) cols_row2 (sn2 nx ex ey) Ae = map (fun p => (fst p, Ae (snd p))) l) /\
  ieach (i_bc2D (T := T) nF (9 * nF) nx ny) = Some (bc2D_stores nF (9 * nF) nx ny) /\
  Forall (fun e => ieval e <> None) (i_vars2 nx ny) /\
  (forall i d, 0 <= i < nx * ny -> 0 <= d < nF ->
     is (fst (i_diag nF (9 * nF) 4 i d)) (i * nF * (9 * nF) + 4 * nF + d * (9 * nF) + d) /\ is (snd (i_diag nF (9 * nF) 4 i d)) (i * nF + d)).
Proof.
  intros H1 H2 H3 H. destruct (size2_ok nF nx ny H1 H2 H3 H) as (A1 & A2 & A3 & A4). assert (P : 4 <= nx * ny) by nia.
  split; [exact A1|]. split; [exact A3|]. split; [exact A4|]. split; [now apply init2D_ok|]. split; [intros i Hi; now apply tests2_ok with nF|].
  split; [intros i j Hi Hj; apply slot_ok with (nrow := nx * ny * nF); lia|]. split; [intros ex ey Ae Hx Hy; exact (add2D_ok nF nx ny ex ey Ae H1 H2 H3 H Hx Hy)|]. split; [now apply bc2D_ok|].
  split; [now apply vars2_ok with nF|]. intros i d Hi Hd. apply diag_ok with (nn := nx * ny); try lia.
Qed.
Lemma matrix3_ok T (OT : Ops T) nF nx ny nz : 1 <= nF -> 2 <= nx -> 2 <= ny -> 2 <= nz -> 27 * nF * (nx * ny * nz * nF) <= INT_MAX ->
  is (i_nn3 nx ny nz) (nx * ny * nz) /\ is (i_nrow3 nF nx ny nz) (nx * ny * nz * nF) /\ is (i_size3 nF nx ny nz) (27 * nF * (nx * ny * nz * nF)) /\
  ieach2 (i_init3D nF nx ny nz) = Some (init3D_stores nF nx ny nz) /\
  (forall i j k, 0 <= i < nx -> 0 <= j < ny -> 0 <= k < nz -> is (i_nod nx ny (V i) (V j) (V k)) (nod_index nx ny i j k)) /\
  (forall i j, 0 <= i < nx * ny * nz * nF -> 0 <= j < 27 * nF -> is (i_slot (27 * nF) i j) (i * (27 * nF) + j)) /\
  (forall ex ey ez (Ae : Z -> T), 0 <= ex < nx - 1 -> 0 <= ey < ny - 1 -> 0 <= ez < nz - 1 ->
     exists l, iboth (i_add 8 nF (27 * nF) cols_row3 (i_sn3 nx ny ex ey ez)) = Some l /\
               add_struct 8 nF (27 * nF) cols_row3 (sn3 nx ny ex ey ez) Ae = map (fun p => (fst p, Ae (snd p))) l) /\
  ieach (i_bc3D (T := T) nF (27 * nF) nx ny nz) = Some (bc3D_stores nF (27 * nF) nx ny nz) /\
  (forall i d, 0 <= i < nx * ny * nz -> 0 <= d < nF ->
     is (fst (i_diag nF (27 * nF) 13 i d)) (i * nF * (27 * nF) + 13 * nF + d * (27 * nF) + d) /\ is (snd (i_diag nF (27 * nF) 13 i d)) (i * nF + d)).
Proof.
  intros H1 H2 H3 H4 H. destruct (size3_ok nF nx ny nz H1 H2 H3 H4 H) as (A1 & A2 & A3 & A4). assert (P : 4 <= nx * ny) by nia.
  pose proof (grow (nx * ny) nz ltac:(lia) ltac:(lia)). pose proof (grow nz (nx * ny) ltac:(lia) ltac:(lia)). pose proof (grow nx ny ltac:(lia) ltac:(lia)). pose proof (grow ny nx ltac:(lia) ltac:(lia)).
  assert (HH : nx * ny * nz * nF * (27 * nF) <= INT_MAX) by (replace (nx * ny * nz * nF * (27 * nF)) with (27 * nF * (nx * ny * nz * nF)) by ring; exact H).
  assert (B : nx * ny * nz <= INT_MAX) by (apply (b_nn nF (27 * nF) (nx * ny * nz)); lia).
  split; [exact A1|]. split; [exact A3|]. split; [exact A4|]. split; [now apply init3D_ok|].
  split; [intros i j k Hi Hj Hk; apply (nod_ok nx ny nz); auto; apply is_V; lia|].
  split; [intros i j Hi Hj; apply slot_ok with (nrow := nx * ny * nz * nF); lia|]. split; [intros ex ey ez Ae Hx Hy Hz; exact (add3D_ok nF nx ny nz ex ey ez Ae H1 H2 H3 H4 H Hx Hy Hz)|]. split; [now apply bc3D_ok|].
  intros i d Hi Hd. apply diag_ok with (nn := nx * ny * nz); try lia.
Qed.
