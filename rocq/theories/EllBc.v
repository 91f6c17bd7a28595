(** Proofs about ell_set_bc_2D / ell_set_bc_3D. *)
From Coq Require Import ZifyBool.
From Verif Require Import Base Scalar InitTables EllModel EllSpec EllInit EllAsm EllOp.
Ltac Zify.zify_post_hook ::= Z.div_mod_to_equations.

Section Bc.
Context {T : Type} `{OT : Ops T}.

(** ** last writes of concatenations whose pieces agree *)
Definition lw_or (ws : list (Z * T)) j v := last_write ws j = None \/ last_write ws j = Some v.

Lemma lw_or_app ws1 ws2 j v : lw_or ws1 j v -> lw_or ws2 j v -> lw_or (ws1 ++ ws2) j v.
Proof. unfold lw_or. rewrite last_write_app. intros [->| ->] [->| ->]; auto. Qed.

Lemma lw_or_flat {A} (f : A -> list (Z * T)) l j v :
  (forall x, In x l -> lw_or (f x) j v) -> lw_or (flat_map f l) j v.
Proof.
  induction l; intros H; simpl; [left; reflexivity|].
  apply lw_or_app; [apply H; simpl; auto|]. apply IHl. intros; apply H; simpl; auto.
Qed.

Lemma lw_or_some ws j v : lw_or ws j v -> (exists v', In (j, v') ws) -> last_write ws j = Some v.
Proof.
  intros [H|H] (v' & Hin); [|exact H]. exfalso. eapply last_write_none_inv; eauto.
Qed.

(** identity value of a row *)
Definition idv (slot s d1 d2 : Z) : T := if (s =? slot) && (d1 =? d2) then ofZ 1 else ofZ 0.

Lemma in_ident_row nF S slot n d a v : 0 < S -> 1 <= nF ->
  In (a, v) (ident_row nF (S * nF) slot n d) -> 
  (exists s d2, 0 <= s < S /\ 0 <= d2 < nF /\ a = cell S nF n d s d2) \/
  a = cell S nF n d slot d.
Proof.
  intros HS HF. unfold ident_row. rewrite in_app_iff, in_map_iff. intros [(j & [= <- <-] & Hj)|[[= <- <-]|[]]].
  - left. apply in_zrange in Hj. exists (j / nF), (j mod nF).
    pose proof (Z.div_mod j nF ltac:(lia)). pose proof (Z.mod_pos_bound j nF ltac:(lia)).
    split; [split; [apply Z.div_pos; lia|apply Z.div_lt_upper_bound; lia]|]. split; [lia|].
    unfold cell. nia.
  - right. unfold cell. ring.
Qed.

Lemma lw_ident_row nF S slot n d n0 d1 s d2 : 1 <= nF -> 0 <= slot < S -> 0 <= d < nF ->
  0 <= d1 < nF -> 0 <= s < S -> 0 <= d2 < nF ->
  last_write (ident_row nF (S * nF) slot n d) (cell S nF n0 d1 s d2)
  = if (n =? n0) && (d =? d1) then Some (idv slot s d1 d2) else None.
Proof.
  intros HF Hsl Hd H1 Hs H2. unfold ident_row. rewrite last_write_app, last_write_cons.
  cbn [last_write fold_left fst snd].
  replace (n * nF * (S * nF) + d * (S * nF) + slot * nF + d) with (cell S nF n d slot d)
    by (unfold cell; ring).
  destruct ((n =? n0) && (d =? d1)) eqn:B.
  - assert (n = n0 /\ d = d1) as (-> & ->) by lia. unfold idv.
    destruct (Z.eqb_spec (cell S nF n0 d1 slot d1) (cell S nF n0 d1 s d2)) as [E|E].
    + apply cell_inj in E; try assumption. destruct E as (_ & _ & -> & ->).
      now rewrite !Z.eqb_refl.
    + destruct ((s =? slot) && (d1 =? d2)) eqn:B2.
      * exfalso. apply E. assert (s = slot /\ d1 = d2) as (-> & ->) by lia. reflexivity.
      * apply last_write_unique.
        -- apply in_map_iff. exists (s * nF + d2). split; [f_equal; unfold cell; ring|].
           apply in_zrange. nia.
        -- intros v' H. apply in_map_iff in H. destruct H as (j & [= _ <-] & _). reflexivity.
  - destruct (Z.eqb_spec (cell S nF n d slot d) (cell S nF n0 d1 s d2)) as [E|E].
    + apply cell_inj in E; try assumption. lia.
    + apply last_write_none. intros v H.
      assert (H' : In (cell S nF n0 d1 s d2, v) (ident_row nF (S * nF) slot n d)).
      { unfold ident_row. apply in_or_app. left. exact H. }
      apply in_ident_row in H'; [|lia|lia].
      destruct H' as [(s' & d2' & Hs' & Hd2' & Ec)|Ec].
      * apply cell_inj in Ec; try assumption. lia.
      * apply cell_inj in Ec; try assumption. lia.
Qed.

Lemma in_zero_slots nF S slots n d a v : (forall l, In l slots -> 0 <= l < S) ->
  In (a, v) (zero_slots nF (S * nF) slots n d) <->
  v = ofZ 0 /\ exists s d2, In s slots /\ 0 <= d2 < nF /\ a = cell S nF n d s d2.
Proof.
  intros _. unfold zero_slots. rewrite in_flat_map. split.
  - intros (l & Hl & H). apply in_map_iff in H. destruct H as (d2 & [= <- <-] & H2).
    apply in_zrange in H2. split; [reflexivity|]. exists l, d2. repeat split; try lia; try assumption.
    unfold cell. ring.
  - intros (-> & s & d2 & Hs & H2 & ->). exists s. split; [exact Hs|].
    apply in_map_iff. exists d2. split; [f_equal; unfold cell; ring|]. now apply in_zrange.
Qed.

(** rows of a list of nodes *)
Lemma lw_rows {A} (l : list A) (nd : A -> Z) nF S slot n0 d1 s d2 : 1 <= nF -> 0 <= slot < S ->
  0 <= d1 < nF -> 0 <= s < S -> 0 <= d2 < nF ->
  lw_or (flat_map (fun d => flat_map (fun x => ident_row nF (S * nF) slot (nd x) d) l) (zrange 0 nF))
        (cell S nF n0 d1 s d2) (idv slot s d1 d2)
  /\ ((exists v, In (cell S nF n0 d1 s d2, v)
        (flat_map (fun d => flat_map (fun x => ident_row nF (S * nF) slot (nd x) d) l) (zrange 0 nF)))
      <-> exists x, In x l /\ nd x = n0).
Proof.
  intros HF Hsl H1 Hs H2. split.
  - apply lw_or_flat. intros d Hd. apply in_zrange in Hd. apply lw_or_flat. intros x Hx.
    unfold lw_or. rewrite lw_ident_row by assumption. destruct (_ && _); auto.
  - split.
    + intros (v & H). apply in_flat_map in H. destruct H as (d & Hd & H). apply in_zrange in Hd.
      apply in_flat_map in H. destruct H as (x & Hx & H). exists x. split; [exact Hx|].
      apply in_ident_row in H; [|lia|lia]. destruct H as [(s' & d2' & ? & ? & Ec)|Ec];
        apply cell_inj in Ec; try assumption; symmetry; tauto.
    + intros (x & Hx & En).
      exists (idv slot s d1 d2). apply in_flat_map. exists d1. split; [now apply in_zrange|].
      apply in_flat_map. exists x. split; [exact Hx|]. apply last_write_in.
      rewrite lw_ident_row by assumption. now rewrite En, !Z.eqb_refl.
Qed.

(** zeroing in a list of nodes *)
Lemma in_zeros {A} (l : list A) (nd : A -> Z) nF S slots n0 d1 s d2 v :
  (forall x, In x slots -> 0 <= x < S) ->
  0 <= d1 < nF -> 0 <= s < S -> 0 <= d2 < nF ->
  In (cell S nF n0 d1 s d2, v)
     (flat_map (fun d => flat_map (fun x => zero_slots nF (S * nF) slots (nd x) d) l) (zrange 0 nF))
  <-> v = ofZ 0 /\ In s slots /\ exists x, In x l /\ nd x = n0.
Proof.
  intros Hsl H1 Hs H2. rewrite in_flat_map. split.
  - intros (d & Hd & H). apply in_zrange in Hd. apply in_flat_map in H. destruct H as (x & Hx & H).
    apply in_zero_slots in H; [|exact Hsl]. destruct H as (-> & s' & d2' & Hs' & H2' & Ec).
    apply cell_inj in Ec; try assumption; [|now apply Hsl].
    destruct Ec as (-> & -> & -> & ->). split; [reflexivity|]. split; [exact Hs'|]. eauto.
  - intros (-> & Hin & x & Hx & <-). exists d1. split; [now apply in_zrange|].
    apply in_flat_map. exists x. split; [exact Hx|]. apply in_zero_slots; [exact Hsl|].
    split; [reflexivity|]. exists s, d2. auto.
Qed.

Lemma in_zeros_range {A} (l : list A) (nd : A -> Z) nF S slots nn a v :
  (forall x, In x slots -> 0 <= x < S) -> (forall x, In x l -> 0 <= nd x < nn) ->
  In (a, v) (flat_map (fun d => flat_map (fun x => zero_slots nF (S * nF) slots (nd x) d) l) (zrange 0 nF))
  -> 0 <= a < (S * nF) * (nn * nF).
Proof.
  intros Hsl Hnd H. apply in_flat_map in H. destruct H as (d & Hd & H). apply in_zrange in Hd.
  apply in_flat_map in H. destruct H as (x & Hx & H).
  apply in_zero_slots in H; [|exact Hsl]. destruct H as (-> & s & d2 & Hs & H2 & ->).
  apply cell_range; auto.
Qed.

Lemma in_rows_range {A} (l : list A) (nd : A -> Z) nF S slot nn a (v : T) :
  1 <= nF -> 0 <= slot < S -> (forall x, In x l -> 0 <= nd x < nn) ->
  In (a, v) (flat_map (fun d => flat_map (fun x => ident_row nF (S * nF) slot (nd x) d) l) (zrange 0 nF))
  -> 0 <= a < (S * nF) * (nn * nF).
Proof.
  intros HF Hsl Hnd H. apply in_flat_map in H. destruct H as (d & Hd & H). apply in_zrange in Hd.
  apply in_flat_map in H. destruct H as (x & Hx & H).
  apply in_ident_row in H; [|lia|lia]. destruct H as [(s & d2 & ? & ? & ->)| ->]; apply cell_range; auto.
Qed.

(** all stores of a list have value 0 *)
Lemma last_write_zeros (ws : list (Z * T)) j :
  (forall v, In (j, v) ws -> v = ofZ 0) ->
  (exists v, In (j, v) ws) -> last_write ws j = Some (ofZ 0).
Proof.
  intros H (v & Hin). apply last_write_unique.
  - rewrite <- (H v Hin). exact Hin.
  - exact H.
Qed.

(** pairs of loop variables as one list *)
Definition prod (la lb : list Z) : list (Z * Z) := flat_map (fun a => map (fun b => (a, b)) lb) la.
Lemma in_prod la lb a b : In (a, b) (prod la lb) <-> In a la /\ In b lb.
Proof.
  unfold prod. rewrite in_flat_map. split.
  - intros (x & Hx & H). apply in_map_iff in H. destruct H as (y & [= <- <-] & Hy). auto.
  - intros (Ha & Hb). exists a. split; [exact Ha|]. apply in_map_iff. eauto.
Qed.
Lemma flat_map_prod {B} la lb (f : Z -> Z -> list B) :
  flat_map (fun a => flat_map (fun b => f a b) lb) la
  = flat_map (fun ab => f (fst ab) (snd ab)) (prod la lb).
Proof.
  unfold prod. induction la as [|a la IH]; simpl; [reflexivity|].
  rewrite flat_map_app, <- IH. f_equal. clear IH. induction lb; simpl; congruence.
Qed.
Lemma flat_map_ext_in {A B} (f g : A -> list B) l :
  (forall x, In x l -> f x = g x) -> flat_map f l = flat_map g l.
Proof. induction l; intros H; simpl; [reflexivity|]. rewrite H, IHl; simpl; auto. intros; apply H; simpl; auto. Qed.

(** ** 3D *)
Definition rows3 (nF : Z) (l : list (Z * Z)) (nd : Z -> Z -> Z) : list (Z * T) :=
  flat_map (fun d => flat_map (fun ab => ident_row nF (27 * nF) 13 (nd (fst ab) (snd ab)) d) l) (zrange 0 nF).
Definition near3 (nF : Z) (l : list (Z * Z)) (nd : Z -> Z -> Z) (slots : list Z) : list (Z * T) :=
  flat_map (fun d => flat_map (fun ab => zero_slots nF (27 * nF) slots (nd (fst ab) (snd ab)) d) l) (zrange 0 nF).

Definition bc3_rows nF nx ny nz : list (Z * T) :=
  let N := nod_index nx ny in let full n := zrange 0 n in
  rows3 nF (prod (full nx) (full ny)) (fun i j => N i j 0)
  ++ rows3 nF (prod (full nx) (full ny)) (fun i j => N i j (nz - 1))
  ++ rows3 nF (prod (full nx) (full nz)) (fun i k => N i 0 k)
  ++ rows3 nF (prod (full nx) (full nz)) (fun i k => N i (ny - 1) k)
  ++ rows3 nF (prod (full ny) (full nz)) (fun j k => N 0 j k)
  ++ rows3 nF (prod (full ny) (full nz)) (fun j k => N (nx - 1) j k).
Definition bc3_near nF nx ny nz : list (Z * T) :=
  let N := nod_index nx ny in let inner n := zrange 1 (n - 1) in
  (if 2 <? nz then near3 nF (prod (inner nx) (inner ny)) (fun i j => N i j 1) (zrange 0 9) else [])
  ++ (if 2 <? nz then near3 nF (prod (inner nx) (inner ny)) (fun i j => N i j (nz - 2)) (zrange 18 27) else [])
  ++ (if 2 <? ny then near3 nF (prod (inner nx) (inner nz)) (fun i k => N i 1 k)
                               [0; 1; 2; 9; 10; 11; 18; 19; 20] else [])
  ++ near3 nF (prod (inner nx) (inner nz)) (fun i k => N i (ny - 2) k) [6; 7; 8; 15; 16; 17; 24; 25; 26]
  ++ (if 2 <? nx then near3 nF (prod (inner ny) (inner nz)) (fun j k => N 1 j k)
                               [0; 3; 6; 9; 12; 15; 18; 21; 24] else [])
  ++ (if 2 <? nx then near3 nF (prod (inner ny) (inner nz)) (fun j k => N (nx - 2) j k)
                               [2; 5; 8; 11; 14; 17; 20; 23; 26] else []).

Lemma bc3D_split nF nx ny nz :
  bc3D_stores nF (27 * nF) nx ny nz = bc3_rows nF nx ny nz ++ bc3_near nF nx ny nz.
Proof.
  unfold bc3D_stores, bc3_rows, bc3_near, rows3, near3. cbv zeta.
  rewrite <- !app_assoc.
  repeat (apply f_equal2; [repeat match goal with |- context [if ?b then _ else _] => destruct b end;
     try reflexivity; apply flat_map_ext_in; intros d _; apply flat_map_prod|]).
  repeat match goal with |- context [if ?b then _ else _] => destruct b end;
     try reflexivity; apply flat_map_ext_in; intros d _; apply flat_map_prod.
Qed.

Ltac cases_or := repeat match goal with H : _ \/ _ |- _ => destruct H end.

Lemma in_near3 nF l nd slots n0 d1 s d2 v :
  (forall x, In x slots -> 0 <= x < 27) ->
  0 <= d1 < nF -> 0 <= s < 27 -> 0 <= d2 < nF ->
  In (cell 27 nF n0 d1 s d2, v) (near3 nF l nd slots)
  <-> v = ofZ 0 /\ In s slots /\ exists ab, In ab l /\ nd (fst ab) (snd ab) = n0.
Proof. intros. unfold near3. now apply in_zeros. Qed.

Definition slots_ok (S : Z) (l : list Z) : Prop := forall x, In x l -> 0 <= x < S.
Lemma slots_check S l : forallb (fun x => (0 <=? x) && (x <? S)) l = true -> slots_ok S l.
Proof. intros H x Hx. pose proof (proj1 (forallb_forall _ _) H x Hx). simpl in *. lia. Qed.
Lemma slots_all S :
  S = 27 ->
  slots_ok S (zrange 0 9) /\ slots_ok S (zrange 18 27) /\
  slots_ok S [0; 1; 2; 9; 10; 11; 18; 19; 20] /\ slots_ok S [6; 7; 8; 15; 16; 17; 24; 25; 26] /\
  slots_ok S [0; 3; 6; 9; 12; 15; 18; 21; 24] /\ slots_ok S [2; 5; 8; 11; 14; 17; 20; 23; 26].
Proof. intros ->. repeat (split; [apply slots_check; reflexivity|]); apply slots_check; reflexivity. Qed.

Lemma slots_char S l (p : Z -> bool) :
  forallb (fun s => Bool.eqb (existsb (Z.eqb s) l) (p s)) (zrange 0 S) = true ->
  forall s, 0 <= s < S -> (In s l <-> p s = true).
Proof.
  intros H s Hs. pose proof (proj1 (forallb_forall _ _) H s (proj2 (in_zrange _ _ _) Hs)) as C.
  cbv beta in C. apply eqb_prop in C. rewrite <- C. rewrite existsb_exists. split.
  - intros Hin. exists s. split; [exact Hin|apply Z.eqb_refl].
  - intros (x & Hx & E). apply Z.eqb_eq in E. now subst.
Qed.

(** which couplings of which nodes bc3_near zeroes *)
Lemma in_bc3_near nF nx ny nz i j k d1 s d2 v :
  2 <= nx -> 2 <= ny -> 2 <= nz ->
  0 <= i < nx -> 0 <= j < ny -> 0 <= k < nz ->
  0 <= d1 < nF -> 0 <= s < 27 -> 0 <= d2 < nF ->
  In (cell 27 nF (node nx ny i j k) d1 s d2, v) (bc3_near nF nx ny nz) <->
  v = ofZ 0 /\
  ( (2 < nz /\ 1 <= i < nx - 1 /\ 1 <= j < ny - 1 /\ k = 1 /\ off_z s = -1) \/
    (2 < nz /\ 1 <= i < nx - 1 /\ 1 <= j < ny - 1 /\ k = nz - 2 /\ off_z s = 1) \/
    (2 < ny /\ 1 <= i < nx - 1 /\ j = 1 /\ 1 <= k < nz - 1 /\ off_y s = -1) \/
    (1 <= i < nx - 1 /\ j = ny - 2 /\ 1 <= k < nz - 1 /\ off_y s = 1) \/
    (2 < nx /\ i = 1 /\ 1 <= j < ny - 1 /\ 1 <= k < nz - 1 /\ off_x s = -1) \/
    (2 < nx /\ i = nx - 2 /\ 1 <= j < ny - 1 /\ 1 <= k < nz - 1 /\ off_x s = 1) ).
Proof.
  intros Hx Hy Hz Hi Hj Hk H1 Hs H2.
  destruct (slots_all 27 eq_refl) as (S1 & S2 & S3 & S4 & S5 & S6).
  unfold bc3_near. rewrite !in_app_iff.
  assert (Gate : forall (b : bool) ws, In (cell 27 nF (node nx ny i j k) d1 s d2, v) (if b then ws else [])
     <-> b = true /\ In (cell 27 nF (node nx ny i j k) d1 s d2, v) ws).
  { intros [] ws; simpl; intuition congruence. }
  rewrite !Gate, !in_near3 by assumption. clear Gate.
  assert (Z1 : In s (zrange 0 9) <-> off_z s = -1)
    by (rewrite <- Z.eqb_eq; match goal with |- In _ _ <-> (?o s =? ?v) = true => apply (slots_char 27 _ (fun s => o s =? v)); [reflexivity|exact Hs] end).
  assert (Z2 : In s (zrange 18 27) <-> off_z s = 1)
    by (rewrite <- Z.eqb_eq; match goal with |- In _ _ <-> (?o s =? ?v) = true => apply (slots_char 27 _ (fun s => o s =? v)); [reflexivity|exact Hs] end).
  assert (Z3 : In s [0; 1; 2; 9; 10; 11; 18; 19; 20] <-> off_y s = -1)
    by (rewrite <- Z.eqb_eq; match goal with |- In _ _ <-> (?o s =? ?v) = true => apply (slots_char 27 _ (fun s => o s =? v)); [reflexivity|exact Hs] end).
  assert (Z4 : In s [6; 7; 8; 15; 16; 17; 24; 25; 26] <-> off_y s = 1)
    by (rewrite <- Z.eqb_eq; match goal with |- In _ _ <-> (?o s =? ?v) = true => apply (slots_char 27 _ (fun s => o s =? v)); [reflexivity|exact Hs] end).
  assert (Z5 : In s [0; 3; 6; 9; 12; 15; 18; 21; 24] <-> off_x s = -1)
    by (rewrite <- Z.eqb_eq; match goal with |- In _ _ <-> (?o s =? ?v) = true => apply (slots_char 27 _ (fun s => o s =? v)); [reflexivity|exact Hs] end).
  assert (Z6 : In s [2; 5; 8; 11; 14; 17; 20; 23; 26] <-> off_x s = 1)
    by (rewrite <- Z.eqb_eq; match goal with |- In _ _ <-> (?o s =? ?v) = true => apply (slots_char 27 _ (fun s => o s =? v)); [reflexivity|exact Hs] end).
  rewrite Z1, Z2, Z3, Z4, Z5, Z6. clear Z1 Z2 Z3 Z4 Z5 Z6 S1 S2 S3 S4 S5 S6.
  assert (Pz : forall c, 0 <= c < nz -> (exists ab, In ab (prod (zrange 1 (nx - 1)) (zrange 1 (ny - 1))) /\
      nod_index nx ny (fst ab) (snd ab) c = node nx ny i j k) <-> 1 <= i < nx - 1 /\ 1 <= j < ny - 1 /\ k = c).
  { intros c Hc. split.
    - intros ((a, b) & Hin & E). apply in_prod in Hin. rewrite !in_zrange in Hin. simpl in E.
      rewrite nod_index_node in E. apply node_inj in E; lia.
    - intros (? & ? & ->). exists (i, j). rewrite in_prod, !in_zrange, nod_index_node. simpl. auto. }
  assert (Py : forall c, 0 <= c < ny -> (exists ab, In ab (prod (zrange 1 (nx - 1)) (zrange 1 (nz - 1))) /\
      nod_index nx ny (fst ab) c (snd ab) = node nx ny i j k) <-> 1 <= i < nx - 1 /\ 1 <= k < nz - 1 /\ j = c).
  { intros c Hc. split.
    - intros ((a, b) & Hin & E). apply in_prod in Hin. rewrite !in_zrange in Hin. simpl in E.
      rewrite nod_index_node in E. apply node_inj in E; lia.
    - intros (? & ? & ->). exists (i, k). rewrite in_prod, !in_zrange, nod_index_node. simpl. auto. }
  assert (Px : forall c, 0 <= c < nx -> (exists ab, In ab (prod (zrange 1 (ny - 1)) (zrange 1 (nz - 1))) /\
      nod_index nx ny c (fst ab) (snd ab) = node nx ny i j k) <-> 1 <= j < ny - 1 /\ 1 <= k < nz - 1 /\ i = c).
  { intros c Hc. split.
    - intros ((a, b) & Hin & E). apply in_prod in Hin. rewrite !in_zrange in Hin. simpl in E.
      rewrite nod_index_node in E. apply node_inj in E; lia.
    - intros (? & ? & ->). exists (j, k). rewrite in_prod, !in_zrange, nod_index_node. simpl. auto. }
  rewrite (Pz 1), (Pz (nz - 2)), (Py 1), (Py (ny - 2)), (Px 1), (Px (nx - 2)) by lia.
  split.
  - intros [H|[H|[H|[H|[H|H]]]]].
    + destruct H as (B & -> & O & P). split; [reflexivity|]. left. lia.
    + destruct H as (B & -> & O & P). split; [reflexivity|]. right; left. lia.
    + destruct H as (B & -> & O & P). split; [reflexivity|]. do 2 right; left. lia.
    + destruct H as (-> & O & P). split; [reflexivity|]. do 3 right; left. lia.
    + destruct H as (B & -> & O & P). split; [reflexivity|]. do 4 right; left. lia.
    + destruct H as (B & -> & O & P). split; [reflexivity|]. do 5 right. lia.
  - intros (-> & [H|[H|[H|[H|[H|H]]]]]).
    + left. split; [lia|]. split; [reflexivity|]. lia.
    + right; left. split; [lia|]. split; [reflexivity|]. lia.
    + do 2 right; left. split; [lia|]. split; [reflexivity|]. lia.
    + do 3 right; left. split; [reflexivity|]. lia.
    + do 4 right; left. split; [lia|]. split; [reflexivity|]. lia.
    + do 5 right. split; [lia|]. split; [reflexivity|]. lia.
Qed.

Lemma bc3_rows_spec nF nx ny nz i j k d1 s d2 :
  2 <= nx -> 2 <= ny -> 2 <= nz -> 1 <= nF ->
  0 <= i < nx -> 0 <= j < ny -> 0 <= k < nz ->
  0 <= d1 < nF -> 0 <= s < 27 -> 0 <= d2 < nF ->
  (bnd3 nx ny nz i j k ->
   last_write (bc3_rows nF nx ny nz) (cell 27 nF (node nx ny i j k) d1 s d2) = Some (idv 13 s d1 d2)) /\
  (~ bnd3 nx ny nz i j k ->
   last_write (bc3_rows nF nx ny nz) (cell 27 nF (node nx ny i j k) d1 s d2) = None).
Proof.
  intros Hx Hy Hz HF Hi Hj Hk H1 Hs H2.
  set (c := cell 27 nF (node nx ny i j k) d1 s d2).
  assert (G : forall l nd, lw_or (rows3 nF l nd) c (idv 13 s d1 d2) /\
     ((exists v, In (c, v) (rows3 nF l nd)) <-> exists ab, In ab l /\ nd (fst ab) (snd ab) = node nx ny i j k)).
  { intros l nd. unfold rows3, c. apply lw_rows; auto; lia. }
  assert (O : lw_or (bc3_rows nF nx ny nz) c (idv 13 s d1 d2)).
  { unfold bc3_rows. repeat apply lw_or_app; apply G. }
  assert (X : (exists v, In (c, v) (bc3_rows nF nx ny nz)) <-> bnd3 nx ny nz i j k).
  { unfold bc3_rows. setoid_rewrite in_app_iff. setoid_rewrite in_app_iff. setoid_rewrite in_app_iff.
    setoid_rewrite in_app_iff. setoid_rewrite in_app_iff. split.
    - intros (v & H). unfold bnd3, on_bnd.
      cases_or; (match goal with H : In (c, v) (rows3 nF ?l ?nd) |- _ =>
        destruct (proj1 (proj2 (G l nd)) (ex_intro _ v H)) as ((a, b) & Hin & E) end);
        apply in_prod in Hin; rewrite !in_zrange in Hin; simpl in E; rewrite nod_index_node in E;
        apply node_inj in E; lia.
    - unfold bnd3, on_bnd. intros H.
      assert (W : forall l nd, (exists ab, In ab l /\ nd (fst ab) (snd ab) = node nx ny i j k) ->
        exists v, In (c, v) (rows3 nF l nd)) by (intros l nd; apply (proj2 (G l nd))).
      assert (Hc : i = 0 \/ i = nx - 1 \/ j = 0 \/ j = ny - 1 \/ k = 0 \/ k = nz - 1) by tauto. clear H.
      destruct Hc as [C|[C|[C|[C|[C|C]]]]].
      + destruct (W (prod (zrange 0 ny) (zrange 0 nz)) (fun j k => nod_index nx ny 0 j k)) as (v & H).
        { exists (j, k). rewrite in_prod, !in_zrange, nod_index_node. simpl. subst. auto. }
        exists v. tauto.
      + destruct (W (prod (zrange 0 ny) (zrange 0 nz)) (fun j k => nod_index nx ny (nx - 1) j k)) as (v & H).
        { exists (j, k). rewrite in_prod, !in_zrange, nod_index_node. simpl. subst. auto. }
        exists v. tauto.
      + destruct (W (prod (zrange 0 nx) (zrange 0 nz)) (fun i k => nod_index nx ny i 0 k)) as (v & H).
        { exists (i, k). rewrite in_prod, !in_zrange, nod_index_node. simpl. subst. auto. }
        exists v. tauto.
      + destruct (W (prod (zrange 0 nx) (zrange 0 nz)) (fun i k => nod_index nx ny i (ny - 1) k)) as (v & H).
        { exists (i, k). rewrite in_prod, !in_zrange, nod_index_node. simpl. subst. auto. }
        exists v. tauto.
      + destruct (W (prod (zrange 0 nx) (zrange 0 ny)) (fun i j => nod_index nx ny i j 0)) as (v & H).
        { exists (i, j). rewrite in_prod, !in_zrange, nod_index_node. simpl. subst. auto. }
        exists v. tauto.
      + destruct (W (prod (zrange 0 nx) (zrange 0 ny)) (fun i j => nod_index nx ny i j (nz - 1))) as (v & H).
        { exists (i, j). rewrite in_prod, !in_zrange, nod_index_node. simpl. subst. auto. }
        exists v. tauto. }
  split.
  - intros B. apply lw_or_some; [exact O|]. now apply X.
  - intros B. apply last_write_none. intros v H. apply B, X. eauto.
Qed.

Lemma bc3D_in_range nF nx ny nz a v : 2 <= nx -> 2 <= ny -> 2 <= nz -> 1 <= nF ->
  In (a, v) (bc3D_stores nF (27 * nF) nx ny nz) -> 0 <= a < (27 * nF) * (nx * ny * nz * nF).
Proof.
  intros Hx Hy Hz HF. rewrite bc3D_split. unfold bc3_rows, bc3_near. rewrite !in_app_iff.
  destruct (slots_all 27 eq_refl) as (S1 & S2 & S3 & S4 & S5 & S6).
  assert (GR : forall l nd, (forall ab, In ab l -> 0 <= nd (fst ab) (snd ab) < nx * ny * nz) ->
     In (a, v) (rows3 nF l nd) -> 0 <= a < (27 * nF) * (nx * ny * nz * nF)).
  { intros l nd Hl H. unfold rows3 in H. eapply in_rows_range in H; [exact H|lia|lia|]. exact Hl. }
  assert (GZ : forall l nd slots, slots_ok 27 slots -> (forall ab, In ab l -> 0 <= nd (fst ab) (snd ab) < nx * ny * nz) ->
     In (a, v) (near3 nF l nd slots) -> 0 <= a < (27 * nF) * (nx * ny * nz * nF)).
  { intros l nd slots Hsl Hl H. unfold near3 in H. eapply in_zeros_range in H; [exact H|exact Hsl|]. exact Hl. }
  intros [H|H].
  - destruct H as [H|[H|[H|[H|[H|H]]]]]; revert H; apply GR;
    intros (p, q) Hpq; apply in_prod in Hpq; rewrite !in_zrange in Hpq; simpl; rewrite nod_index_node;
    apply node_range; lia.
  - destruct H as [H|[H|[H|[H|[H|H]]]]];
    repeat match type of H with context [if ?b then _ else _] => destruct b eqn:?; [|destruct H] end;
    revert H; (apply GZ; [assumption|]);
    intros (p, q) Hpq; apply in_prod in Hpq; rewrite !in_zrange in Hpq; simpl; rewrite nod_index_node;
    apply node_range; lia.
Qed.

Theorem set_bc_3D_ok (m : ell T) nF nx ny nz :
  2 <= nx -> 2 <= ny -> 2 <= nz -> 1 <= nF -> struct3 m nF nx ny nz ->
  exists v, ell_set_bc_3D m nF nx ny nz = Ok (set_vals m v) /\
    alen v = (27 * nF) * (nx * ny * nz * nF) /\
    forall i j k d1 s d2, 0 <= i < nx -> 0 <= j < ny -> 0 <= k < nz ->
      0 <= d1 < nF -> 0 <= s < 27 -> 0 <= d2 < nF ->
      let c := cell 27 nF (node nx ny i j k) d1 s d2 in
      (bnd3 nx ny nz i j k -> aget v c = Some (idv 13 s d1 d2)) /\
      (~ bnd3 nx ny nz i j k ->
         (bnd3 nx ny nz (i + off_x s) (j + off_y s) (k + off_z s) -> aget v c = Some (ofZ 0)) /\
         (~ bnd3 nx ny nz (i + off_x s) (j + off_y s) (k + off_z s) -> aget v c = aget (e_vals m) c)).
Proof.
  intros Hx Hy Hz HF M. unfold ell_set_bc_3D. rewrite (s3_nnz _ _ _ _ _ M).
  destruct (run_stores_ok (bc3D_stores nF (27 * nF) nx ny nz) (e_vals m)) as (v & E & L & G).
  { intros a x Hin. apply bc3D_in_range in Hin; try assumption. now rewrite (s3_vlen _ _ _ _ _ M). }
  rewrite E. cbn [bind]. exists v. split; [reflexivity|].
  split; [rewrite L; now destruct M|].
  intros i j k d1 s d2 Hi Hj Hk H1 Hs H2.
  set (c := cell 27 nF (node nx ny i j k) d1 s d2).
  rewrite G, bc3D_split, last_write_app.
  destruct (bc3_rows_spec nF nx ny nz i j k d1 s d2) as (RB & RI); try assumption. fold c in RB, RI.
  assert (Z : forall v, In (c, v) (bc3_near nF nx ny nz) <-> _)
    by (intros v0; unfold c; apply in_bc3_near; try assumption).
  destruct (offs_bound s Hs) as (Bx & By & Bz).
  split.
  - intros B. rewrite (RB B).
    destruct (last_write (bc3_near nF nx ny nz) c) eqn:E1; [|reflexivity].
    apply last_write_in in E1. apply Z in E1. destruct E1 as (-> & E1).
    f_equal. unfold idv. destruct (Z.eqb_spec s 13); [|reflexivity].
    exfalso. subst s. revert E1. change (off_x 13) with 0. change (off_y 13) with 0.
    change (off_z 13) with 0. clear. intros E1. cases_or; lia.
  - intros NB. rewrite (RI NB). unfold bnd3, on_bnd in NB. split.
    + intros B. rewrite last_write_zeros; [reflexivity| |].
      * intros v0 H. now apply Z in H.
      * exists (ofZ 0). apply Z. split; [reflexivity|].
        assert (NB1 : 1 <= i < nx - 1) by lia. assert (NB2 : 1 <= j < ny - 1) by lia.
        assert (NB3 : 1 <= k < nz - 1) by lia. clear NB RB RI Z. unfold bnd3, on_bnd in B.
        destruct B as [[B|B]|[[B|B]|[B|B]]].
        -- do 4 right; left. lia.
        -- do 5 right. lia.
        -- do 2 right; left. lia.
        -- do 3 right; left. lia.
        -- left. lia.
        -- right; left. lia.
    + intros B. rewrite last_write_none; [reflexivity|].
      intros v0 H. apply Z in H. destruct H as (_ & H). apply B. unfold bnd3, on_bnd.
      clear Z RB RI B NB. destruct H as [H|[H|[H|[H|[H|H]]]]].
      * right; right; left. lia.
      * right; right; right. lia.
      * right; left; left. lia.
      * right; left; right. lia.
      * left; left. lia.
      * left; right. lia.
Qed.

End Bc.
