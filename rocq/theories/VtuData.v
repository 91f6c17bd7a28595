(** The contents of the arrays of a VTU file. *)
From Coq Require Import String ZifyBool.
From Verif Require Import Base Scalar EllSpec EllInit EllModel EllAsm EllFinal Grid AssemblyModel AsmPure AsmRun MicroModel OutputModel NewtonBase FieldsBase ApiBase ApiRun ApiHist Build ApiSpec VtuProps.
Open Scope string_scope.
Open Scope list_scope.
Open Scope Z_scope.

Section Words.
Context {T : Type}.
Notation toks := (list (tok T)).
(** [m] words per item *)
Definition wide (m : Z) (t : toks) : Prop := Z.of_nat (length (filter word t)) = m.
Lemma line1 (g : Z -> toks) m n : 0 <= m -> 0 <= n -> (forall i, 0 <= i < n -> wide m (g i)) ->
  wide (n * m) (flat_map g (zrange 0 n)) /\
  (forall i r, 0 <= i < n -> 0 <= r < m -> tnth (filter word (flat_map g (zrange 0 n))) (i * m + r) = tnth (filter word (g i)) r).
Proof.
  intros Hm Hn H. unfold wide in *. rewrite filter_flat. split.
  - rewrite (flat_len _ (Z.to_nat m)); [rewrite length_zrange; nia|]. intros x Hx. apply in_zrange in Hx. specialize (H x ltac:(lia)). lia.
  - intros i r Hi Hr. pose proof (flat_nth (fun x => filter word (g x)) m 0 n (fun x => x) Hm Hn H i r Hi Hr) as X. rewrite map_id in X. rewrite <- X. f_equal. lia.
Qed.
Lemma line2 (g : Z -> Z -> toks) m n2 n1 : 0 <= m -> 0 <= n1 -> 0 <= n2 -> (forall j i, 0 <= j < n2 -> 0 <= i < n1 -> wide m (g j i)) ->
  wide (n2 * n1 * m) (flat_map (fun j => flat_map (g j) (zrange 0 n1)) (zrange 0 n2)) /\
  (forall j i r, 0 <= j < n2 -> 0 <= i < n1 -> 0 <= r < m ->
    tnth (filter word (flat_map (fun j => flat_map (g j) (zrange 0 n1)) (zrange 0 n2))) ((j * n1 + i) * m + r) = tnth (filter word (g j i)) r).
Proof.
  intros Hm H1 H2 H. destruct (line1 (fun j => flat_map (g j) (zrange 0 n1)) (n1 * m) n2) as (A & B); try nia.
  - intros j Hj. apply line1; try lia. intros i Hi. now apply H.
  - split; [unfold wide in *; rewrite A; ring|]. intros j i r Hj Hi Hr. destruct (line1 (g j) m n1) as (_ & D); try lia; [intros; now apply H|].
    rewrite <- (D i r Hi Hr), <- (B j (i * m + r) Hj) by nia. f_equal. ring.
Qed.
Lemma line3 (g : Z -> Z -> Z -> toks) m n3 n2 n1 : 0 <= m -> 0 <= n1 -> 0 <= n2 -> 0 <= n3 ->
  (forall k j i, 0 <= k < n3 -> 0 <= j < n2 -> 0 <= i < n1 -> wide m (g k j i)) ->
  wide (n3 * n2 * n1 * m) (flat_map (fun k => flat_map (fun j => flat_map (g k j) (zrange 0 n1)) (zrange 0 n2)) (zrange 0 n3)) /\
  (forall k j i r, 0 <= k < n3 -> 0 <= j < n2 -> 0 <= i < n1 -> 0 <= r < m ->
    tnth (filter word (flat_map (fun k => flat_map (fun j => flat_map (g k j) (zrange 0 n1)) (zrange 0 n2)) (zrange 0 n3))) (((k * n2 + j) * n1 + i) * m + r)
      = tnth (filter word (g k j i)) r).
Proof.
  intros Hm H1 H2 H3 H. destruct (line1 (fun k => flat_map (fun j => flat_map (g k j) (zrange 0 n1)) (zrange 0 n2)) (n2 * n1 * m) n3) as (A & B); try (repeat apply Z.mul_nonneg_nonneg; lia).
  - intros k Hk. apply line2; try lia. intros j i Hj Hi. now apply H.
  - split; [unfold wide in *; rewrite A; ring|]. intros k j i r Hk Hj Hi Hr. destruct (line2 (g k) m n2 n1) as (_ & D); try lia; [intros; now apply H|].
    assert (Q : 0 <= j * n1 + i < n2 * n1) by nia. assert (Q' : 0 <= (j * n1 + i) * m + r < n2 * n1 * m) by (generalize dependent (j * n1 + i); intros; nia).
    rewrite <- (D j i r Hj Hi Hr), <- (B k ((j * n1 + i) * m + r) Hk Q'). f_equal. ring.
Qed.
Lemma tnth_app_nl (l : toks) i : tnth (filter word (l ++ [NL])) i = tnth (filter word l) i.
Proof. rewrite filter_app. cbn [filter word]. now rewrite app_nil_r. Qed.
Lemma wide_nl (l : toks) m : wide m l -> wide m (l ++ [NL]).
Proof. unfold wide. rewrite filter_app. cbn [filter word]. now rewrite app_nil_r. Qed.
Lemma tnth_cons (a : tok T) l r : tnth (a :: l) r = if r <=? 0 then a else tnth l (r - 1).
Proof. unfold tnth. destruct (r <=? 0) eqn:E; [replace (Z.to_nat r) with 0%nat by lia; reflexivity|]. replace (Z.to_nat r) with (S (Z.to_nat (r - 1))) by lia. reflexivity. Qed.
Lemma tnth_map (f : Z -> tok T) n c : 0 <= c < n -> tnth (map f (zrange 0 n)) c = f c.
Proof.
  intros H. unfold tnth. rewrite nth_indep with (d' := f 0) by (rewrite map_length, length_zrange; lia). rewrite map_nth. f_equal.
  unfold zrange. rewrite nth_indep with (d' := (fun k => 0 + Z.of_nat k) 0%nat) by (rewrite map_length, seq_length; lia). rewrite (map_nth (fun k => 0 + Z.of_nat k)), seq_nth by lia. lia.
Qed.
End Words.

Section Contents.
Context {T : Type} `{OT : Ops T}.
Implicit Types (V : env T) (o : obj T).
Local Open Scope num_scope.
Notation toks := (list (tok T)).

(** the number of cell (ex,ey,ez) *)
Definition cell_no (nx ny ex ey ez : Z) : Z := (ez * ((nx - 1) * (ny - 1)) + ey * (nx - 1) + ex)%Z.

Lemma ints_words (l : list Z) : filter word (@ints T l ++ [NL]) = map TI l.
Proof. rewrite filter_app. cbn [filter word]. rewrite app_nil_r. unfold ints. rewrite filter_flat. induction l as [|a l IH]; [reflexivity|]. cbn [flat_map map]. now rewrite IH. Qed.


Lemma nodal_words V a s d : v_dim V = d -> (d = 2 \/ d = 3)%Z -> (0 <= nn V)%Z -> vtu_nodal V a = Ok s ->
  wide (3 * nn V) s /\ forall p c, (0 <= p < nn V -> 0 <= c < 3 ->
    if c <? d then exists x, aget a (d * p + c) = Some x /\ tnth (filter word s) (3 * p + c) = TD x else tnth (filter word s) (3 * p + c) = TS " 0.0")%Z.
Proof.
  intros D Hd Hn H. unfold vtu_nodal in H. apply emit_inv in H. destruct H as (g & Hg & ->). rewrite D in Hg.
  assert (G : forall p, (0 <= p < nn V)%Z -> wide 3 (g p) /\ forall c, (0 <= c < 3)%Z -> if (c <? d)%Z then exists x, aget a (d * p + c)%Z = Some x /\ tnth (filter word (g p)) c = TD x else tnth (filter word (g p)) c = TS " 0.0").
  { intros p Hp. specialize (Hg p (proj2 (in_zrange _ _ _) Hp)). destruct Hd as [-> | ->].
    - change (2 =? 2)%Z with true in Hg. cbv iota in Hg. apply bind_ok in Hg. destruct Hg as (x & E1 & Hg). apply bind_ok in Hg. destruct Hg as (y & E2 & Hg). injection Hg as <-.
      apply rd_some in E1. apply rd_some in E2. split; [reflexivity|]. intros c Hc. destruct (Z.ltb_spec c 2).
      + assert (c = 0 \/ c = 1)%Z as [-> | ->] by lia; [exists x|exists y]; (split; [|reflexivity]); [rewrite <- E1|rewrite <- E2]; f_equal; lia.
      + assert (c = 2)%Z as -> by lia. reflexivity.
    - change (3 =? 2)%Z with false in Hg. change (3 =? 3)%Z with true in Hg. cbv iota in Hg. apply bind_ok in Hg. destruct Hg as (x & E1 & Hg). apply bind_ok in Hg. destruct Hg as (y & E2 & Hg).
      apply bind_ok in Hg. destruct Hg as (z & E3 & Hg). injection Hg as <-. apply rd_some in E1. apply rd_some in E2. apply rd_some in E3. split; [reflexivity|]. intros c Hc.
      destruct (Z.ltb_spec c 3); [|lia]. assert (c = 0 \/ c = 1 \/ c = 2)%Z as [-> | [-> | ->]] by lia; [exists x|exists y|exists z]; (split; [|reflexivity]); [rewrite <- E1|rewrite <- E2|rewrite <- E3]; f_equal; lia. }
  destruct (line1 g 3 (nn V)) as (A & B); try lia; [intros p Hp; now apply G|]. split; [unfold wide in *; rewrite A; ring|].
  intros p c Hp Hc. specialize (B p c Hp Hc). destruct (G p Hp) as (_ & Gp). specialize (Gp c Hc). replace (3 * p + c)%Z with (p * 3 + c)%Z by ring. now rewrite B.
Qed.
Lemma cell_words V a s : (0 <= vcells V)%Z -> vtu_cell V a = Ok s ->
  wide (nvoi V * vcells V) s /\ forall q, (0 <= q < nvoi V * vcells V)%Z -> exists x, aget a q = Some x /\ tnth (filter word s) q = TD x.
Proof.
  intros Hn H. unfold vtu_cell in H. apply emit_inv in H. destruct H as (g & Hg & ->). assert (Hv : (0 < nvoi V)%Z) by (unfold nvoi; destruct (v_dim V =? 2)%Z; lia).
  assert (G : forall e, (0 <= e < vcells V)%Z -> wide (nvoi V) (g e) /\ forall v, (0 <= v < nvoi V)%Z -> exists x, aget a (e * nvoi V + v)%Z = Some x /\ tnth (filter word (g e)) v = TD x).
  { intros e He. specialize (Hg e (proj2 (in_zrange _ _ _) He)). apply bind_ok in Hg. destruct Hg as (t & E & Hg). injection Hg as <-. apply emit_inv in E. destruct E as (h & Hh & ->).
    destruct (line1 h 1 (nvoi V)) as (A & B); try lia.
    { intros v Hv'. specialize (Hh v (proj2 (in_zrange _ _ _) Hv')). apply bind_ok in Hh. destruct Hh as (x & _ & Hh). injection Hh as <-. reflexivity. }
    split; [apply wide_nl; unfold wide in *; rewrite A; ring|]. intros v Hv'. specialize (B v 0%Z Hv' ltac:(lia)). specialize (Hh v (proj2 (in_zrange _ _ _) Hv')).
    apply bind_ok in Hh. destruct Hh as (x & E & Hh). injection Hh as Hh. apply rd_some in E. exists x. split; [exact E|]. rewrite tnth_app_nl. replace v with (v * 1 + 0)%Z at 1 by lia. rewrite B, <- Hh. reflexivity. }
  destruct (line1 g (nvoi V) (vcells V)) as (A & B); try lia; [intros e He; now apply G|]. split; [unfold wide in *; rewrite A; ring|].
  intros q Hq. assert (Hd : (q = (q / nvoi V) * nvoi V + q mod nvoi V)%Z) by (rewrite Z.mul_comm; apply Z.div_mod; lia). pose proof (Z.mod_pos_bound q (nvoi V) Hv) as Hm.
  assert (He : (0 <= q / nvoi V < vcells V)%Z) by (split; [apply Z.div_pos; lia|apply Z.div_lt_upper_bound; lia]).
  destruct (G _ He) as (_ & Gq). destruct (Gq _ Hm) as (x & E & W). exists x. rewrite Hd. split; [exact E|]. now rewrite (B _ _ He Hm).
Qed.
Lemma num_words {A} (f : Z -> res A) (tk : A -> tok T) n s : (0 <= n)%Z -> (forall a, word (tk a) = true) ->
  (' t <- emit (fun e => x <- f e ;; Ok [tk x; sp]) (zrange 0 n) ;; Ok (t ++ [NL])) = Ok s ->
  wide n s /\ forall e, (0 <= e < n)%Z -> exists x, f e = Ok x /\ tnth (filter word s) e = tk x.
Proof.
  intros Hn Hw H. apply bind_ok in H. destruct H as (t & E & H). injection H as <-. apply emit_inv in E. destruct E as (g & Hg & ->).
  assert (G : forall e, (0 <= e < n)%Z -> exists x, f e = Ok x /\ g e = [tk x; sp]).
  { intros e He. specialize (Hg e (proj2 (in_zrange _ _ _) He)). apply bind_ok in Hg. destruct Hg as (x & E & Hg). injection Hg as Hg. now exists x. }
  destruct (line1 g 1 n) as (A1 & B); try lia.
  { intros e He. destruct (G e He) as (x & _ & ->). unfold wide. cbn [filter]. rewrite Hw. reflexivity. }
  split; [apply wide_nl; unfold wide in *; rewrite A1; ring|]. intros e He. destruct (G e He) as (x & E & Eg). exists x. split; [exact E|].
  rewrite tnth_app_nl. replace e with (e * 1 + 0)%Z at 1 by lia. rewrite (B e 0%Z He ltac:(lia)), Eg. cbn [filter]. rewrite Hw. reflexivity.
Qed.
Lemma offs_words V : (0 <= vcells V)%Z -> wide (vcells V) (vtu_offsets V) /\ forall e, (0 <= e < vcells V)%Z -> tnth (filter word (vtu_offsets V)) e = TI (npe V * (e + 1)).
Proof.
  intros Hn. rewrite offsets_eq. destruct (line1 (fun e => [@TI T (npe V * (e + 1)); sp]) 1 (vcells V)) as (A & B); try lia; [reflexivity|].
  split; [apply wide_nl; unfold wide in *; rewrite A; ring|]. intros e He. rewrite tnth_app_nl. replace e with (e * 1 + 0)%Z at 1 by lia. now rewrite (B e 0%Z He ltac:(lia)).
Qed.
Lemma types_words V : (0 <= vcells V)%Z -> (v_dim V = 2 \/ v_dim V = 3)%Z ->
  wide (vcells V) (vtu_types V) /\ forall e, (0 <= e < vcells V)%Z -> tnth (filter word (vtu_types V)) e = TS (if (v_dim V =? 2)%Z then "9 " else "12 ").
Proof.
  intros Hn D. unfold vtu_types.
  destruct (line1 (fun _ : Z => if (v_dim V =? 2)%Z then [@TS T "9 "] else if (v_dim V =? 3)%Z then [TS "12 "] else []) 1 (vcells V)) as (A & B); try lia.
  { intros _ _. destruct D as [-> | ->]; reflexivity. }
  split; [apply wide_nl; unfold wide in *; rewrite A; ring|]. intros e He. rewrite tnth_app_nl. replace e with (e * 1 + 0)%Z at 1 by lia. rewrite (B e 0%Z He ltac:(lia)).
  destruct D as [-> | ->]; reflexivity.
Qed.

Section Three.
Variable V : env T.
Hypothesis D : v_dim V = 3%Z.
Hypothesis Hx : (2 <= v_nx V)%Z.
Hypothesis Hy : (2 <= v_ny V)%Z.
Hypothesis Hz : (2 <= v_nz V)%Z.
Let nx := v_nx V.
Let ny := v_ny V.
Let nz := v_nz V.

Lemma points3 : wide (3 * nn V) (vtu_points V) /\ forall i j k c, (0 <= i < nx -> 0 <= j < ny -> 0 <= k < nz -> 0 <= c < 3 ->
  tnth (filter word (vtu_points V)) (3 * node nx ny i j k + c) = tnth [TD (ofZ i * v_dx V)%num; TD (ofZ j * v_dy V)%num; TD (ofZ k * v_dz V)%num] c)%Z.
Proof.
  unfold vtu_points. fold nx ny nz. rewrite D. change (3 =? 2)%Z with false. change (3 =? 3)%Z with true. cbv iota.
  destruct (line3 (fun k j i => [TD (ofZ i * v_dx V); sp; TD (ofZ j * v_dy V); sp; TD (ofZ k * v_dz V); NL]) 3 nz ny nx) as (A & B); try (unfold nx, ny, nz; lia); [reflexivity|].
  split; [unfold wide in *; rewrite A; unfold nn; fold nx ny nz; ring|]. intros i j k c Hi Hj Hk Hc. specialize (B k j i c Hk Hj Hi Hc).
  etransitivity; [|etransitivity; [exact B|reflexivity]]. f_equal. unfold node. ring.
Qed.
Lemma conn3 : wide (8 * vcells V) (vtu_conn V) /\ forall ex ey ez c, (0 <= ex < nx - 1 -> 0 <= ey < ny - 1 -> 0 <= ez < nz - 1 -> 0 <= c < 8 ->
  tnth (filter word (vtu_conn V)) (8 * cell_no nx ny ex ey ez + c) = TI (node nx ny (ex + cor_x c) (ey + cor_y c) (ez + cor_z c)))%Z.
Proof.
  unfold vtu_conn. fold nx ny nz. rewrite D. change (3 =? 2)%Z with false. change (3 =? 3)%Z with true. cbv iota.
  match goal with |- wide _ (flat_map (fun ez => flat_map (fun ey => flat_map (@?g ez ey) _) _) _) /\ _ => set (gg := g) end.
  assert (G : forall ez ey ex, filter word (gg ez ey ex) = map TI (map (fun c => node nx ny (ex + cor_x c) (ey + cor_y c) (ez + cor_z c)) (zrange 0 8))).
  { intros ez ey ex. unfold gg. rewrite ints_words. f_equal. change (zrange 0 8) with [0; 1; 2; 3; 4; 5; 6; 7]%Z. cbn [map]. unfold node.
    repeat match goal with |- _ :: _ = _ :: _ => apply f_equal2 end; try reflexivity; match goal with |- ?a = ?b => match b with context [cor_x ?c] =>
      let u := eval vm_compute in (cor_x c) in let v := eval vm_compute in (cor_y c) in let w := eval vm_compute in (cor_z c) in
      change (cor_x c) with u; change (cor_y c) with v; change (cor_z c) with w end end; ring. }
  destruct (line3 gg 8 (nz - 1) (ny - 1) (nx - 1)) as (A & B); try (unfold nx, ny, nz; lia).
  { intros k j i _ _ _. unfold wide. rewrite G. reflexivity. }
  split. { unfold wide in *. etransitivity; [exact A|]. unfold vcells, nelem. rewrite D. change (3 =? 2)%Z with false. cbv iota. fold nx ny nz. ring. }
  intros ex ey ez c Hex Hey Hez Hc. etransitivity; [|etransitivity; [exact (B ez ey ex c Hez Hey Hex Hc)|]].
  - f_equal. unfold cell_no. ring.
  - rewrite G, map_map. now apply (tnth_map (fun c => TI (node nx ny (ex + cor_x c) (ey + cor_y c) (ez + cor_z c)))).
Qed.
End Three.

Section Two.
Variable V : env T.
Hypothesis D : v_dim V = 2%Z.
Hypothesis Hx : (2 <= v_nx V)%Z.
Hypothesis Hy : (2 <= v_ny V)%Z.
Hypothesis Hz : v_nz V = 1%Z.
Let nx := v_nx V.
Let ny := v_ny V.

Lemma points2 : wide (3 * nn V) (vtu_points V) /\ forall i j c, (0 <= i < nx -> 0 <= j < ny -> 0 <= c < 3 ->
  tnth (filter word (vtu_points V)) (3 * node nx ny i j 0 + c) = tnth [TD (ofZ i * v_dx V)%num; TD (ofZ j * v_dy V)%num; TS "0.0"] c)%Z.
Proof.
  unfold vtu_points. fold nx ny. rewrite D. change (2 =? 2)%Z with true. cbv iota.
  destruct (line2 (fun j i => [TD (ofZ i * v_dx V); sp; TD (ofZ j * v_dy V); sp; TS "0.0"; NL]) 3 ny nx) as (A & B); try (unfold nx, ny; lia); [reflexivity|].
  split; [unfold wide in *; rewrite A; unfold nn; rewrite Hz; fold nx ny; ring|]. intros i j c Hi Hj Hc. specialize (B j i c Hj Hi Hc).
  etransitivity; [|etransitivity; [exact B|reflexivity]]. f_equal. unfold node. ring.
Qed.
Lemma conn2 : wide (4 * vcells V) (vtu_conn V) /\ forall ex ey c, (0 <= ex < nx - 1 -> 0 <= ey < ny - 1 -> 0 <= c < 4 ->
  tnth (filter word (vtu_conn V)) (4 * cell_no nx ny ex ey 0 + c) = TI (node nx ny (ex + cor_x c) (ey + cor_y c) 0))%Z.
Proof.
  unfold vtu_conn. fold nx ny. rewrite D. change (2 =? 2)%Z with true. cbv iota.
  match goal with |- wide _ (flat_map (fun ey => flat_map (@?g ey) _) _) /\ _ => set (gg := g) end.
  assert (G : forall ey ex, filter word (gg ey ex) = map TI (map (fun c => node nx ny (ex + cor_x c) (ey + cor_y c) 0) (zrange 0 4))).
  { intros ey ex. unfold gg. rewrite ints_words. f_equal. change (zrange 0 4) with [0; 1; 2; 3]%Z. cbn [map]. unfold node.
    repeat match goal with |- _ :: _ = _ :: _ => apply f_equal2 end; try reflexivity; match goal with |- ?a = ?b => match b with context [cor_x ?c] =>
      let u := eval vm_compute in (cor_x c) in let v := eval vm_compute in (cor_y c) in
      change (cor_x c) with u; change (cor_y c) with v end end; ring. }
  destruct (line2 gg 4 (ny - 1) (nx - 1)) as (A & B); try (unfold nx, ny; lia).
  { intros j i _ _. unfold wide. rewrite G. reflexivity. }
  split. { unfold wide in *. etransitivity; [exact A|]. unfold vcells, nelem. rewrite D. change (2 =? 2)%Z with true. cbv iota. fold nx ny. ring. }
  intros ex ey c Hex Hey Hc. etransitivity; [|etransitivity; [exact (B ey ex c Hey Hex Hc)|]].
  - f_equal. unfold cell_no. ring.
  - rewrite G, map_map. now apply (tnth_map (fun c => TI (node nx ny (ex + cor_x c) (ey + cor_y c) 0))).
Qed.
End Two.

(** ** The whole file *)
Lemma sum_all {A} (f : A -> res T) l s : sumM l f = Ok s -> forall a, In a l -> exists x, f a = Ok x.
Proof.
  unfold sumM. generalize (ofZ 0 : T). intros z H. revert z H. induction l as [|b l IH]; intros z H a Ha; [destruct Ha|].
  cbn [foldM] in H. apply bind_ok in H. destruct H as (c & E & H). apply bind_ok in E. destruct E as (x & E & _). destruct Ha as [<-|Ha]; [now exists x|now apply (IH c)].
Qed.
Lemma map_all {A B} (f : A -> res B) l s : mapM f l = Ok s -> forall a, In a l -> exists x, f a = Ok x.
Proof.
  revert s. induction l as [|b l IH]; intros s H a Ha; [destruct Ha|]. cbn [mapM] in H. apply bind_ok in H. destruct H as (x & E & H). apply bind_ok in H. destruct H as (y & E2 & _).
  destruct Ha as [<-|Ha]; [now exists x|now apply (IH y)].
Qed.
Lemma rd_oval (a : arr T) i x : rd a i = Ok x -> x = oval a i.
Proof. intros H. apply rd_some in H. unfold oval. now rewrite H. Qed.

(** the norm of the plastic strain at a point and its mean, and the mean hardening *)
Definition plastic_norm (vold : arr T) (e g : Z) : T :=
  let q i := oval vold (intvar_ix e g i) in
  osqrt (q 0%Z * q 0%Z + q 1%Z * q 1%Z + q 2%Z * q 2%Z + ofZ 2 * q 3%Z * q 3%Z + ofZ 2 * q 4%Z * q 4%Z + ofZ 2 * q 5%Z * q 5%Z).

Lemma plast_ok V vold e x : v_dim V = 3%Z -> 
  sumM (zrange 0 8) (fun g => l <- mapM (fun i => rd vold (intvar_ix e g i)) (zrange 0 6) ;;
        let q i := lget l i in
        Ok (osqrt (q 0%Z * q 0%Z + q 1%Z * q 1%Z + q 2%Z * q 2%Z + ofZ 2 * q 3%Z * q 3%Z
                   + ofZ 2 * q 4%Z * q 4%Z + ofZ 2 * q 5%Z * q 5%Z))) = Ok x ->
  x = sumf (zrange 0 8) (plastic_norm vold e) /\ forall g i, (0 <= g < 8)%Z -> (0 <= i < 6)%Z -> exists y, aget vold (intvar_ix e g i) = Some y.
Proof.
  intros D H. assert (A : forall g i, (0 <= g < 8)%Z -> (0 <= i < 6)%Z -> exists y, rd vold (intvar_ix e g i) = Ok y).
  { intros g i Hg Hi. destruct (sum_all _ _ _ H g (proj2 (in_zrange _ _ _) Hg)) as (y & E). apply bind_ok in E. destruct E as (l & E & _).
    exact (map_all _ _ _ E i (proj2 (in_zrange _ _ _) Hi)). }
  split.
  - rewrite (ApiBase.sumM_ok _ _ (plastic_norm vold e)) in H; [now injection H|]. intros g Hg. apply in_zrange in Hg.
    rewrite (ApiBase.mapM_ok _ (fun i => oval vold (intvar_ix e g i))).
    + cbn [bind]. reflexivity.
    + intros i Hi. apply in_zrange in Hi. destruct (A g i Hg Hi) as (y & E). rewrite E. f_equal. now apply rd_oval.
  - intros g i Hg Hi. destruct (A g i Hg Hi) as (y & E). exists y. now apply rd_some.
Qed.
Lemma hard_ok vold e x : sumM (zrange 0 8) (fun g => rd vold (intvar_ix e g 6)) = Ok x ->
  x = sumf (zrange 0 8) (fun g => oval vold (intvar_ix e g 6)) /\ forall g, (0 <= g < 8)%Z -> exists y, aget vold (intvar_ix e g 6) = Some y.
Proof.
  intros H. pose proof (sum_all _ _ _ H) as A. split.
  - rewrite (ApiBase.sumM_ok _ _ (fun g => oval vold (intvar_ix e g 6))) in H; [now injection H|]. intros g Hg. destruct (A g Hg) as (y & E). rewrite E. f_equal. now apply rd_oval.
  - intros g Hg. destruct (A g (proj2 (in_zrange _ _ _) Hg)) as (y & E). exists y. now apply rd_some.
Qed.

Lemma has_words f name d n (P : (Z -> tok T) -> Prop) : data name f = Some (filter word d) -> wide n d -> P (tnth (filter word d)) -> has f name n P.
Proof. intros E W H. exists (filter word d). auto. Qed.

Theorem vtu3 o f : write_vtu o = Ok f -> v_dim (o_env o) = 3%Z -> (2 <= v_nx (o_env o))%Z -> (2 <= v_ny (o_env o))%Z -> (2 <= v_nz (o_env o))%Z ->
  let V := o_env o in let nx := v_nx V in let ny := v_ny V in let nz := v_nz V in let vold := w_vold (o_work o) in
  let np := (nx * ny * nz)%Z in let nc := ((nx - 1) * (ny - 1) * (nz - 1))%Z in
  piece f = Some (np, nc) /\
  has f "Position" (3 * np) (fun t => forall i j k, (0 <= i < nx -> 0 <= j < ny -> 0 <= k < nz ->
    t (3 * node nx ny i j k) = TD (ofZ i * v_dx V)%num /\ t (3 * node nx ny i j k + 1) = TD (ofZ j * v_dy V)%num /\ t (3 * node nx ny i j k + 2) = TD (ofZ k * v_dz V)%num)%Z) /\
  has f "connectivity" (8 * nc) (fun t => forall ex ey ez c, (0 <= ex < nx - 1 -> 0 <= ey < ny - 1 -> 0 <= ez < nz - 1 -> 0 <= c < 8 ->
    t (8 * cell_no nx ny ex ey ez + c) = TI (node nx ny (ex + cor_x c) (ey + cor_y c) (ez + cor_z c)))%Z) /\
  has f "offsets" nc (fun t => forall e, (0 <= e < nc)%Z -> t e = TI (8 * (e + 1))) /\
  has f "types" nc (fun t => forall e, (0 <= e < nc)%Z -> t e = TS "12 ") /\
  has f "displ" (3 * np) (fun t => forall q, (0 <= q < 3 * np)%Z -> exists x, aget (w_u (o_work o)) q = Some x /\ t q = TD x) /\
  has f "b" (3 * np) (fun t => forall q, (0 <= q < 3 * np)%Z -> exists x, aget (w_b (o_work o)) q = Some x /\ t q = TD x) /\
  has f "strain" (6 * nc) (fun t => forall q, (0 <= q < 6 * nc)%Z -> exists x, aget (o_estrain o) q = Some x /\ t q = TD x) /\
  has f "stress" (6 * nc) (fun t => forall q, (0 <= q < 6 * nc)%Z -> exists x, aget (o_estress o) q = Some x /\ t q = TD x) /\
  has f "elem_type" nc (fun t => forall e, (0 <= e < nc)%Z -> exists z, aget (v_etype V) e = Some z /\ t e = TI z) /\
  has f "plasticity" nc (fun t => forall e, (0 <= e < nc)%Z -> t e = TD (sumf (zrange 0 8) (plastic_norm vold e) / ofZ 8)) /\
  has f "hardening" nc (fun t => forall e, (0 <= e < nc)%Z -> t e = TD (sumf (zrange 0 8) (fun g => oval vold (intvar_ix e g 6)) / ofZ 8)).
Proof.
  intros H D Hx Hy Hz V nx ny nz vold np nc.
  destruct (arrays o f H (or_intror D)) as (P & A1 & A2 & A3 & A4 & su & sb & se & ss & st & sq & sh & E1 & E2 & E3 & E4 & E5 & E6 & E7 & B1 & B2 & B3 & B4 & B5 & B6 & B7).
  fold V in D, Hx, Hy, Hz, P, A1, A2, A3, A4, E1, E2, E3, E4, E5, E6, E7.
  assert (Hnc : vcells V = nc) by (unfold vcells, nelem; rewrite D; reflexivity). assert (Hnp : nn V = np) by reflexivity.
  assert (Hc : (0 <= vcells V)%Z) by (rewrite Hnc; unfold nc, nx, ny, nz; apply Z.mul_nonneg_nonneg; [apply Z.mul_nonneg_nonneg|]; lia).
  assert (Hp : (0 <= nn V)%Z) by (unfold nn; apply Z.mul_nonneg_nonneg; [apply Z.mul_nonneg_nonneg|]; lia).
  assert (Hv : nvoi V = 6%Z) by (unfold nvoi; now rewrite D). assert (He : npe V = 8%Z) by (unfold npe; now rewrite D).
  destruct (points3 V D Hx Hy Hz) as (L1 & W1). destruct (conn3 V D Hx Hy Hz) as (L2 & W2). destruct (offs_words V Hc) as (L3 & W3). destruct (types_words V Hc (or_intror D)) as (L4 & W4).
  destruct (nodal_words V _ _ 3 D (or_intror eq_refl) Hp E1) as (M1 & X1). destruct (nodal_words V _ _ 3 D (or_intror eq_refl) Hp E2) as (M2 & X2).
  destruct (cell_words V _ _ Hc E3) as (M3 & X3). destruct (cell_words V _ _ Hc E4) as (M4 & X4).
  destruct (num_words (rd (v_etype V)) TI _ _ Hc (fun _ => eq_refl) E5) as (M5 & X5).
  unfold vtu_plast in E6. rewrite D in E6. change (3 =? 3)%Z with true in E6. cbv iota in E6.
  unfold vtu_hard in E7. rewrite D in E7. change (3 =? 3)%Z with true in E7. cbv iota in E7.
  destruct (num_words _ (fun p => TD (p / ofZ 8)) _ _ Hc (fun _ => eq_refl) E6) as (M6 & X6).
  destruct (num_words _ (fun p => TD (p / ofZ 8)) _ _ Hc (fun _ => eq_refl) E7) as (M7 & X7).
  rewrite Hv in M3, X3, M4, X4. rewrite Hnc in *. rewrite Hnp in *. rewrite He in W3.
  assert (N3 : forall a t, (forall p c, (0 <= p < np -> 0 <= c < 3 -> if c <? 3 then exists x, aget a (3 * p + c) = Some x /\ tnth t (3 * p + c) = TD x else tnth t (3 * p + c) = TS " 0.0")%Z) ->
     forall q, (0 <= q < 3 * np)%Z -> exists x, aget a q = Some x /\ tnth t q = @TD T x).
  { intros a t Y q Hq. assert (Hd : (q = 3 * (q / 3) + q mod 3)%Z) by (apply Z.div_mod; lia). pose proof (Z.mod_pos_bound q 3 ltac:(lia)) as Hm.
    assert (Hq' : (0 <= q / 3 < np)%Z) by (split; [apply Z.div_pos; lia|apply Z.div_lt_upper_bound; lia]).
    specialize (Y (q / 3)%Z (q mod 3)%Z Hq' Hm). destruct (Z.ltb_spec (q mod 3) 3); [|lia]. rewrite Hd. exact Y. }
  split; [exact P|]. split; [|split; [|split; [|split; [|split; [|split; [|split; [|split; [|split; [|split]]]]]]]]].
  - apply (has_words _ _ _ _ _ A1 L1). intros i j k Hi Hj Hk. rewrite <- (Z.add_0_r (3 * node nx ny i j k)) at 1. rewrite !(W1 i j k) by (assumption || lia). repeat split.
  - apply (has_words _ _ _ _ _ A2 L2). intros. now apply W2.
  - apply (has_words _ _ _ _ _ A3 L3). intros. now apply W3.
  - apply (has_words _ _ _ _ _ A4 L4). intros e He'. rewrite W4 by exact He'. now rewrite D.
  - apply (has_words _ _ _ _ _ B1 M1). apply N3. exact X1.
  - apply (has_words _ _ _ _ _ B2 M2). apply N3. exact X2.
  - apply (has_words _ _ _ _ _ B3 M3). exact X3.
  - apply (has_words _ _ _ _ _ B4 M4). exact X4.
  - apply (has_words _ _ _ _ _ B5 M5). intros e He'. destruct (X5 e He') as (z & E & W). exists z. split; [|exact W]. unfold rd in E. unfold aget. destruct (inb (v_etype V) e); [|discriminate]. destruct FMapPositive.PositiveMap.find; [injection E as ->; reflexivity|discriminate].
  - apply (has_words _ _ _ _ _ B6 M6). intros e He'. destruct (X6 e He') as (z & E & W). rewrite W. apply (plast_ok V) in E; [|exact D]. destruct E as (-> & _). reflexivity.
  - apply (has_words _ _ _ _ _ B7 M7). intros e He'. destruct (X7 e He') as (z & E & W). rewrite W. apply hard_ok in E. destruct E as (-> & _). reflexivity.
Qed.

Theorem vtu2 o f : write_vtu o = Ok f -> v_dim (o_env o) = 2%Z -> (2 <= v_nx (o_env o))%Z -> (2 <= v_ny (o_env o))%Z -> v_nz (o_env o) = 1%Z ->
  let V := o_env o in let nx := v_nx V in let ny := v_ny V in let np := (nx * ny)%Z in let nc := ((nx - 1) * (ny - 1))%Z in
  piece f = Some (np, nc) /\
  has f "Position" (3 * np) (fun t => forall i j, (0 <= i < nx -> 0 <= j < ny ->
    t (3 * node nx ny i j 0) = TD (ofZ i * v_dx V)%num /\ t (3 * node nx ny i j 0 + 1) = TD (ofZ j * v_dy V)%num /\ t (3 * node nx ny i j 0 + 2) = TS "0.0")%Z) /\
  has f "connectivity" (4 * nc) (fun t => forall ex ey c, (0 <= ex < nx - 1 -> 0 <= ey < ny - 1 -> 0 <= c < 4 ->
    t (4 * cell_no nx ny ex ey 0 + c) = TI (node nx ny (ex + cor_x c) (ey + cor_y c) 0))%Z) /\
  has f "offsets" nc (fun t => forall e, (0 <= e < nc)%Z -> t e = TI (4 * (e + 1))) /\
  has f "types" nc (fun t => forall e, (0 <= e < nc)%Z -> t e = TS "9 ") /\
  has f "displ" (3 * np) (fun t => forall p, (0 <= p < np)%Z -> exists x y, aget (w_u (o_work o)) (2 * p) = Some x /\ aget (w_u (o_work o)) (2 * p + 1) = Some y /\
    t (3 * p)%Z = TD x /\ t (3 * p + 1)%Z = TD y /\ t (3 * p + 2)%Z = TS " 0.0") /\
  has f "b" (3 * np) (fun t => forall p, (0 <= p < np)%Z -> exists x y, aget (w_b (o_work o)) (2 * p) = Some x /\ aget (w_b (o_work o)) (2 * p + 1) = Some y /\
    t (3 * p)%Z = TD x /\ t (3 * p + 1)%Z = TD y /\ t (3 * p + 2)%Z = TS " 0.0") /\
  has f "strain" (3 * nc) (fun t => forall q, (0 <= q < 3 * nc)%Z -> exists x, aget (o_estrain o) q = Some x /\ t q = TD x) /\
  has f "stress" (3 * nc) (fun t => forall q, (0 <= q < 3 * nc)%Z -> exists x, aget (o_estress o) q = Some x /\ t q = TD x) /\
  has f "elem_type" nc (fun t => forall e, (0 <= e < nc)%Z -> exists z, aget (v_etype V) e = Some z /\ t e = TI z) /\
  has f "plasticity" nc (fun t => forall e, (0 <= e < nc)%Z -> t e = TD (dec 0 1 / ofZ 8)) /\
  has f "hardening" nc (fun t => forall e, (0 <= e < nc)%Z -> t e = TD (dec 0 1 / ofZ 8)).
Proof.
  intros H D Hx Hy Hz V nx ny np nc.
  destruct (arrays o f H (or_introl D)) as (P & A1 & A2 & A3 & A4 & su & sb & se & ss & st & sq & sh & E1 & E2 & E3 & E4 & E5 & E6 & E7 & B1 & B2 & B3 & B4 & B5 & B6 & B7).
  fold V in D, Hx, Hy, Hz, P, A1, A2, A3, A4, E1, E2, E3, E4, E5, E6, E7.
  assert (Hnc : vcells V = nc) by (unfold vcells, nelem; rewrite D; reflexivity). assert (Hnp : nn V = np) by (unfold nn; rewrite Hz; unfold np, nx, ny; ring).
  assert (Hc : (0 <= vcells V)%Z) by (rewrite Hnc; unfold nc, nx, ny; apply Z.mul_nonneg_nonneg; lia).
  assert (Hp : (0 <= nn V)%Z) by (rewrite Hnp; unfold np, nx, ny; apply Z.mul_nonneg_nonneg; lia).
  assert (Hv : nvoi V = 3%Z) by (unfold nvoi; now rewrite D). assert (He : npe V = 4%Z) by (unfold npe; now rewrite D).
  destruct (points2 V D Hx Hy Hz) as (L1 & W1). destruct (conn2 V D Hx Hy) as (L2 & W2). destruct (offs_words V Hc) as (L3 & W3). destruct (types_words V Hc (or_introl D)) as (L4 & W4).
  destruct (nodal_words V _ _ 2 D (or_introl eq_refl) Hp E1) as (M1 & X1). destruct (nodal_words V _ _ 2 D (or_introl eq_refl) Hp E2) as (M2 & X2).
  destruct (cell_words V _ _ Hc E3) as (M3 & X3). destruct (cell_words V _ _ Hc E4) as (M4 & X4).
  destruct (num_words (rd (v_etype V)) TI _ _ Hc (fun _ => eq_refl) E5) as (M5 & X5).
  unfold vtu_plast in E6. rewrite D in E6. change (2 =? 3)%Z with false in E6. cbv iota in E6.
  unfold vtu_hard in E7. rewrite D in E7. change (2 =? 3)%Z with false in E7. cbv iota in E7.
  destruct (num_words _ (fun p => TD (p / ofZ 8)) _ _ Hc (fun _ => eq_refl) E6) as (M6 & X6).
  destruct (num_words _ (fun p => TD (p / ofZ 8)) _ _ Hc (fun _ => eq_refl) E7) as (M7 & X7).
  rewrite Hv in M3, X3, M4, X4. rewrite Hnc in *. rewrite Hnp in *. rewrite He in W3.
  assert (N2 : forall a t, (forall p c, (0 <= p < np -> 0 <= c < 3 -> if c <? 2 then exists x, aget a (2 * p + c) = Some x /\ tnth t (3 * p + c) = TD x else tnth t (3 * p + c) = TS " 0.0")%Z) ->
     forall p, (0 <= p < np)%Z -> exists x y, aget a (2 * p) = Some x /\ aget a (2 * p + 1) = Some y /\ tnth t (3 * p) = @TD T x /\ tnth t (3 * p + 1) = TD y /\ tnth t (3 * p + 2) = TS " 0.0").
  { intros a t Y p Hq. destruct (Y p 0%Z Hq ltac:(lia)) as (x & Y1 & Y2). destruct (Y p 1%Z Hq ltac:(lia)) as (y & Y3 & Y4). pose proof (Y p 2%Z Hq ltac:(lia)) as Y5.
    rewrite Z.add_0_r in Y1. rewrite Z.add_0_r in Y2. exists x, y. auto. }
  split; [exact P|]. split; [|split; [|split; [|split; [|split; [|split; [|split; [|split; [|split; [|split]]]]]]]]].
  - apply (has_words _ _ _ _ _ A1 L1). intros i j Hi Hj. rewrite <- (Z.add_0_r (3 * node nx ny i j 0)) at 1. rewrite !(W1 i j) by (assumption || lia). repeat split.
  - apply (has_words _ _ _ _ _ A2 L2). intros. now apply W2.
  - apply (has_words _ _ _ _ _ A3 L3). intros. now apply W3.
  - apply (has_words _ _ _ _ _ A4 L4). intros e He'. rewrite W4 by exact He'. now rewrite D.
  - apply (has_words _ _ _ _ _ B1 M1). apply N2. exact X1.
  - apply (has_words _ _ _ _ _ B2 M2). apply N2. exact X2.
  - apply (has_words _ _ _ _ _ B3 M3). exact X3.
  - apply (has_words _ _ _ _ _ B4 M4). exact X4.
  - apply (has_words _ _ _ _ _ B5 M5). intros e He'. destruct (X5 e He') as (z & E & W). exists z. split; [|exact W]. unfold rd in E. unfold aget. destruct (inb (v_etype V) e); [|discriminate]. destruct FMapPositive.PositiveMap.find; [injection E as ->; reflexivity|discriminate].
  - apply (has_words _ _ _ _ _ B6 M6). intros e He'. destruct (X6 e He') as (z & E & W). rewrite W. injection E as <-. reflexivity.
  - apply (has_words _ _ _ _ _ B7 M7). intros e He'. destruct (X7 e He') as (z & E & W). rewrite W. injection E as <-. reflexivity.
Qed.
End Contents.
