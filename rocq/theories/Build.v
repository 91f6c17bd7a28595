(** Construction over any arithmetic: valid arguments give an object in which every
    call sequence is safe; the only errors are those of the Newton loop. *)
From Coq Require Import ZifyBool FMapPositive.
From Verif Require Import Base Scalar EllSpec EllInit EllModel EllAsm EllFinal EllProps Grid AssemblyModel AsmPure AsmRun MicroModel OutputModel NewtonBase ApiBase ApiRun ApiHist.

Section Build.
Context {T : Type} `{OT : Ops T}.
Implicit Types (V : env T) (w : work T) (o : obj T).

(** ** Memory *)
Lemma key_inj i j : 0 <= i -> 0 <= j -> key i = key j -> i = j.
Proof. unfold key. intros Hi Hj H. apply (f_equal Z.pos) in H. rewrite !Z2Pos.id in H by lia. lia. Qed.
Lemma alloc_get (f : Z -> option T) n i : 0 <= i < n -> aget (alloc f n) i = f i.
Proof.
  intros Hi. unfold aget, inb, alloc. cbn [alen acells]. replace ((0 <=? i) && (i <? n))%bool with true by lia.
  assert (Hl : forall k, In k (zrange 0 n) -> 0 <= k) by (intros k Hk; apply in_zrange in Hk; lia).
  assert (Hin : In i (zrange 0 n)) by now apply in_zrange.
  revert Hl Hin. generalize (zrange 0 n) as l. induction l as [|k l IH]; intros Hl Hin; [destruct Hin|]. cbn [fold_right].
  destruct (Z.eq_dec k i) as [->|Hne].
  - destruct (f i) as [x|] eqn:E; [now rewrite PositiveMap.gss|].
    destruct (in_dec Z.eq_dec i l) as [I|N]; [apply IH; [intros; apply Hl; now right|exact I]|].
    clear Hin IH. induction l as [|k l IH]; cbn [fold_right]; [apply PositiveMap.gempty|].
    assert (k <> i) by (intros ->; apply N; now left).
    destruct (f k); [rewrite PositiveMap.gso|]; [apply IH; [intros q [->|Hq]; [lia|apply Hl; now right; right]|intros Hq; apply N; now right]| |].
    + intros H1. apply key_inj in H1; [congruence|lia|apply Hl; right; now left].
    + apply IH; [intros q [->|Hq]; [lia|apply Hl; now right; right]|intros Hq; apply N; now right].
  - destruct Hin as [->|Hin]; [congruence|]. destruct (f k); [rewrite PositiveMap.gso|]; [apply IH; [intros; apply Hl; now right|exact Hin]| |apply IH; [intros; apply Hl; now right|exact Hin]].
    intros H1. apply key_inj in H1; [congruence|lia|apply Hl; now left].
Qed.
Lemma alloc_full (f : Z -> option T) n : (forall i, exists x, f i = Some x) -> full (alloc f n) n.
Proof. intros H. split; [reflexivity|]. intros i Hi. rewrite alloc_get by exact Hi. apply H. Qed.

(** ** Linear tangent *)
Lemma ctan_lin_ok V fuel orc w c : sane V -> wfull V w -> alen c = 36 ->
  match calc_ctan_lin fuel orc V w c with
  | Ok (w', c') => wfull V w' /\ w_vold w' = w_vold w /\ alen c' = 36 /\ pfull c' (nvoi V * nvoi V) /\
      forall i, 0 <= i < nvoi V -> exists w1 w2 nl it er s, wfull V w1 /\ w_vold w1 = w_vold w /\
        respond fuel (orc i) V (bump (nvoi V) (zeros (nvoi V)) i) w1 = Ok (w2, nl, it, er, s) /\
        forall v, 0 <= v < nvoi V -> aget c' (v * nvoi V + i) = Some (odiv (lget s v) d_eps)
  | Err e => bad fuel orc e
  end.
Proof.
  intros S W Lc. pose proof (nvoi_range V S) as Nv. unfold calc_ctan_lin.
  pose (P := fun (n : Z) (st : work T * arr T) => wfull V (fst st) /\ w_vold (fst st) = w_vold w /\ alen (snd st) = 36 /\
    forall i, 0 <= i < n -> exists w1 w2 nl it er s, wfull V w1 /\ w_vold w1 = w_vold w /\
        respond fuel (orc i) V (bump (nvoi V) (zeros (nvoi V)) i) w1 = Ok (w2, nl, it, er, s) /\
        forall v, 0 <= v < nvoi V -> aget (snd st) (v * nvoi V + i) = Some (odiv (lget s v) d_eps)).
  match goal with |- match foldM ?f _ _ with _ => _ end => pose proof (foldM_iter f P (bad fuel orc) (nvoi V) ltac:(lia) (w, c)) as X end.
  match type of X with ?A -> ?B -> ?C => assert (HA : A); [|assert (HB : B)] end.
  - unfold P. split; [exact W|]. split; [reflexivity|]. split; [exact Lc|]. intros; lia.
  - intros i (w1, c1) Hi (W1 & O1 & Lc1 & H1). cbn [fst snd] in *.
    destruct (respond fuel (orc i) V (bump (nvoi V) (zeros (nvoi V)) i) w1) as [r|e] eqn:E; cbn [bind].
    + pose proof (wfull_respond V _ _ _ _ _ S W1 E) as H. destruct r as ((((w2, nl), it), er), s). destruct H as (W2 & I2 & O2 & _).
      destruct (wr_col_ok V c1 i (ltab (nvoi V) (fun v => odiv (lget s v) d_eps)) S Lc1 Hi) as (c2 & Ec & Lc2 & Hc2). rewrite Ec. cbn [bind].
      unfold P. cbn [fst snd]. split; [exact W2|]. split; [congruence|]. split; [exact Lc2|]. intros j Hj.
      destruct (Z.eq_dec j i) as [->|Hne].
      * exists w1, w2, nl, it, er, s. split; [exact W1|]. split; [exact O1|]. split; [exact E|]. intros v Hv. rewrite (Hc2 v i Hv Hi), Z.eqb_refl, lget_ltab by exact Hv. reflexivity.
      * destruct (H1 j ltac:(lia)) as (a1 & a2 & a3 & a4 & a5 & a6 & B1 & B2 & B3 & B4). exists a1, a2, a3, a4, a5, a6.
        split; [exact B1|]. split; [exact B2|]. split; [exact B3|]. intros v Hv. rewrite (Hc2 v j Hv ltac:(lia)). destruct (Z.eqb_spec j i); [lia|]. now apply B4.
    + destruct W1 as (K1 & _). pose proof (respond_ok V (orc i) fuel (bump (nvoi V) (zeros (nvoi V)) i) w1 S K1) as H. rewrite E in H.
      exists i. exact H.
  - specialize (X HA HB). destruct foldM as [(w', c')|e]; [|exact X]. destruct X as (W' & O' & Lc' & H'). cbn [fst snd] in *.
    split; [exact W'|]. split; [exact O'|]. split; [exact Lc'|]. split; [|exact H'].
    intros i Hi. destruct (H' (i mod nvoi V)) as (a1 & a2 & a3 & a4 & a5 & a6 & _ & _ & _ & B4); [apply Z.mod_pos_bound; lia|].
    replace i with ((i / nvoi V) * nvoi V + i mod nvoi V) by (rewrite (Z.div_mod i (nvoi V)) at 3 by lia; ring).
    rewrite B4; [eauto|]. split; [apply Z.div_pos; lia|]. apply Z.div_lt_upper_bound; lia.
Qed.

(** ** Cell types *)
Definition class2 V ex ey : Z := match elem_type2D V ex ey with Ok t => t | Err _ => 0 end.
Definition class3 V ex ey ez : Z := match elem_type3D V ex ey ez with Ok t => t | Err _ => 0 end.
Lemma class2_ok V ex ey : v_type V = 0 \/ v_type V = 1 -> elem_type2D V ex ey = Ok (class2 V ex ey) /\ (class2 V ex ey = 0 \/ class2 V ex ey = 1).
Proof.
  intros H. assert (E : exists t, elem_type2D V ex ey = Ok t /\ (t = 0 \/ t = 1)).
  { unfold elem_type2D. destruct H as [-> | ->]; cbn [Z.eqb Pos.eqb]; (eexists; split; [reflexivity|]; destruct oltb; auto). }
  destruct E as (t & E & Ht). unfold class2. now rewrite E.
Qed.
Lemma class3_ok V ex ey ez : v_type V = 0 \/ v_type V = 1 -> elem_type3D V ex ey ez = Ok (class3 V ex ey ez) /\ (class3 V ex ey ez = 0 \/ class3 V ex ey ez = 1).
Proof.
  intros H. assert (E : exists t, elem_type3D V ex ey ez = Ok t /\ (t = 0 \/ t = 1)).
  { unfold elem_type3D. destruct H as [-> | ->]; cbn [Z.eqb Pos.eqb]; (eexists; split; [reflexivity|]; destruct oltb; auto). }
  destruct E as (t & E & Ht). unfold class3. now rewrite E.
Qed.

Lemma ix3_range_g V e : In e (els3 V) -> 0 <= ix3 V e < (v_nx V - 1) * (v_ny V - 1) * (v_nz V - 1).
Proof. destruct e as ((ex, ey), ez). intros H. apply in_els3 in H. unfold ix3. rewrite glo_elem_node. apply node_range; lia. Qed.
Lemma fill_types_ok V : (v_dim V = 2 \/ v_dim V = 3) -> v_type V = 0 \/ v_type V = 1 -> alen (v_etype V) = ncells V ->
  exists a, fill_types V = Ok a /\ alen a = ncells V /\
    (v_dim V = 2 -> forall ex ey, In (ex, ey) (els2 V) -> aget a (ix2 V (ex, ey)) = Some (class2 V ex ey)) /\
    (v_dim V = 3 -> forall ex ey ez, In (ex, ey, ez) (els3 V) -> aget a (ix3 V (ex, ey, ez)) = Some (class3 V ex ey ez)).
Proof.
  intros D Ty L. unfold fill_types. destruct D as [D|D]; rewrite D; cbn [Z.eqb Pos.eqb].
  - match goal with |- context [foldM ?f (els2 V) ?a0] => destruct (foldM_inv f (fun pre a => alen a = ncells V /\ forall ex ey, In (ex, ey) pre -> aget a (ix2 V (ex, ey)) = Some (class2 V ex ey)) (els2 V) a0) as (a & E & L' & G) end.
    + split; [exact L|]. intros ex ey [].
    + intros pre (ex, ey) post a El (La & Ga). destruct (class2_ok V ex ey Ty) as (Ec & _). rewrite Ec. cbn [bind].
      assert (Hx : In (ex, ey) (els2 V)) by (rewrite El; apply in_or_app; right; now left).
      pose proof (ix2_range V _ D Hx) as Rx. unfold ix2 in Rx.
      destruct (wr_ok a (glo_elem3D (v_nx V) (v_ny V) ex ey 0) (class2 V ex ey)) as (a' & Ew & Lw & Gw); [rewrite La; exact Rx|].
      exists a'. split; [exact Ew|]. split; [congruence|]. intros fx fy Hf. rewrite Gw. change (ix2 V (fx, fy)) with (glo_elem3D (v_nx V) (v_ny V) fx fy 0) at 1.
      destruct (Z.eqb_spec (glo_elem3D (v_nx V) (v_ny V) fx fy 0) (glo_elem3D (v_nx V) (v_ny V) ex ey 0)) as [Q|Q].
      * assert (Hf' : In (fx, fy) (els2 V)). { rewrite El. apply in_app_or in Hf. apply in_or_app. destruct Hf as [Hf|[Hf|[]]]; [now left|right; now left]. }
        apply in_els2 in Hf', Hx. unfold glo_elem3D in Q. assert (fy = ey) by nia. subst fy. assert (fx = ex) by lia. now subst.
      * apply in_app_or in Hf. destruct Hf as [Hf|[[= -> ->]|[]]]; [now apply Ga|congruence].
    + exists a. split; [exact E|]. split; [exact L'|]. split; [intros _; exact G|discriminate].
  - match goal with |- context [foldM ?f (els3 V) ?a0] => destruct (foldM_inv f (fun pre a => alen a = ncells V /\ forall ex ey ez, In (ex, ey, ez) pre -> aget a (ix3 V (ex, ey, ez)) = Some (class3 V ex ey ez)) (els3 V) a0) as (a & E & L' & G) end.
    + split; [exact L|]. intros ex ey ez [].
    + intros pre ((ex, ey), ez) post a El (La & Ga). destruct (class3_ok V ex ey ez Ty) as (Ec & _). rewrite Ec. cbn [bind].
      assert (Hx : In (ex, ey, ez) (els3 V)) by (rewrite El; apply in_or_app; right; now left).
      pose proof (ix3_range V _ D Hx) as Rx. unfold ix3 in Rx.
      destruct (wr_ok a (glo_elem3D (v_nx V) (v_ny V) ex ey ez) (class3 V ex ey ez)) as (a' & Ew & Lw & Gw); [rewrite La; exact Rx|].
      exists a'. split; [exact Ew|]. split; [congruence|]. intros fx fy fz Hf. rewrite Gw. change (ix3 V (fx, fy, fz)) with (glo_elem3D (v_nx V) (v_ny V) fx fy fz) at 1.
      destruct (Z.eqb_spec (glo_elem3D (v_nx V) (v_ny V) fx fy fz) (glo_elem3D (v_nx V) (v_ny V) ex ey ez)) as [Q|Q].
      * assert (Hf' : In (fx, fy, fz) (els3 V)). { rewrite El. apply in_app_or in Hf. apply in_or_app. destruct Hf as [Hf|[Hf|[]]]; [now left|right; now left]. }
        pose proof (ix3_inj V (fx, fy, fz) (ex, ey, ez) Hf' Hx Q) as [= -> -> ->]. reflexivity.
      * apply in_app_or in Hf. destruct Hf as [Hf|[[= -> -> ->]|[]]]; [now apply Ga|congruence].
    + exists a. split; [exact E|]. split; [exact L'|]. split; [discriminate|intros _; exact G].
Qed.

(** ** Arguments *)
Definition mat_type_ok (t : Z) : Prop := t = 0 \/ t = 1 \/ t = 2.
Record valid_args (dim nx ny nz mtype : Z) (mp : list T) (mt : list Z) (ps : list T) : Prop := {
  va_dim : dim = 2 \/ (dim = 3 /\ 2 <= nz);
  va_nx : 2 <= nx; va_ny : 2 <= ny;
  va_type : mtype = 0 \/ mtype = 1;
  va_mp : (5 <= length mp)%nat;
  va_mt : exists t0 t1 r, mt = t0 :: t1 :: r /\ mat_type_ok t0 /\ mat_type_ok t1;
  va_ps : (14 <= length ps)%nat }.
Record total_junk (j : junk T) : Prop := {
  tj_u : forall i, exists x, j_u j i = Some x;
  tj_old : forall i, exists x, j_vold j i = Some x;
  tj_new : forall i, exists x, j_vnew j i = Some x;
  tj_tol : exists x, j_tol j = Some x }.

Lemma arg_ok (l : list T) i : 0 <= i < Z.of_nat (length l) -> arg l i = Ok (lget l i).
Proof.
  intros H. unfold arg, lget. destruct (Z.ltb_spec i 0); [lia|].
  assert (E : (Z.to_nat i < length l)%nat) by lia. rewrite (nth_error_nth' l (ofZ 0) E). reflexivity.
Qed.
Definition flags (t : Z) : option bool * option bool :=
  match t with 0 => (Some false, Some false) | 1 => (Some true, Some false) | 2 => (Some false, Some true) | _ => (None, None) end.
Definition the_mat (t : Z) (E nu Sy Ka : T) : material T :=
  mkMat E nu (odiv E (omul (ofZ 3) (osub (ofZ 1) (omul (ofZ 2) nu)))) (odiv E (omul (ofZ 2) (oadd (ofZ 1) nu)))
    (odiv (omul nu E) (omul (oadd (ofZ 1) nu) (osub (ofZ 1) (omul (ofZ 2) nu)))) Ka Sy (fst (flags t)) (snd (flags t)).
Definition mat_i (t : Z) (ps : list T) (i : Z) : material T :=
  the_mat t (lget ps (i * 10)) (lget ps (i * 10 + 1)) (lget ps (i * 10 + 2)) (lget ps (i * 10 + 3)).
Lemma mats_ok t0 t1 r (ps : list T) : (14 <= length ps)%nat ->
  mapM (make_material (t0 :: t1 :: r) ps) (zrange 0 2) = Ok [mat_i t0 ps 0; mat_i t1 ps 1].
Proof.
  intros L. change (zrange 0 2) with [0; 1]. cbn [mapM]. unfold make_material.
  rewrite !arg_ok by lia. cbn [bind]. change (arg (t0 :: t1 :: r) 0) with (@Ok Z t0). change (arg (t0 :: t1 :: r) 1) with (@Ok Z t1). cbn [bind].
  unfold mat_i, the_mat. change (0 * 10) with 0. unfold flags.
  assert (X : forall t, (let '(p, d) := match t with 0 => (Some false, Some false) | 1 => (Some true, Some false) | 2 => (Some false, Some true) | _ => (None, None) end in (p, d)) =
    match t with 0 => (Some false, Some false) | 1 => (Some true, Some false) | 2 => (Some false, Some true) | _ => (None (A:=bool), None (A:=bool)) end).
  { intros t. now destruct (match t with 0 => _ | _ => _ end). }
  destruct (match t0 with 0 => _ | _ => _ end) as (p0, d0). cbn [bind].
  destruct (match t1 with 0 => _ | _ => _ end) as (p1, d1). cbn [bind]. reflexivity.
Qed.
Lemma flags_plast t : mat_type_ok t -> exists b, fst (flags t) = Some b.
Proof. intros [->|[->| ->]]; cbn; eauto. Qed.

(** what the object is after construction *)
Record env_of (dim nx ny nz mtype : Z) (mp : list T) (mt : list Z) (ps : list T) (tol : T) V : Prop := {
  eo_dim : v_dim V = dim; eo_nx : v_nx V = nx; eo_ny : v_ny V = ny; eo_nz : v_nz V = (if dim =? 2 then 1 else nz);
  eo_lx : v_lx V = lget mp 0; eo_ly : v_ly V = lget mp 1; eo_lz : v_lz V = (if dim =? 2 then dec 0 1 else lget mp 2);
  eo_dx : v_dx V = odiv (v_lx V) (ofZ (nx - 1)); eo_dy : v_dy V = odiv (v_ly V) (ofZ (ny - 1));
  eo_dz : v_dz V = odiv (v_lz V) (ofZ (v_nz V - 1));
  eo_width : v_width V = lget mp 3; eo_tol : v_inv_tol V = tol; eo_type : v_type V = mtype;
  eo_mats : exists t0 t1 r, mt = t0 :: t1 :: r /\ v_mats V = [mat_i t0 ps 0; mat_i t1 ps 1];
  eo_etype2 : dim = 2 -> forall ex ey, 0 <= ex < nx - 1 -> 0 <= ey < ny - 1 -> aget (v_etype V) (ey * (nx - 1) + ex) = Some (class2 V ex ey);
  eo_etype3 : dim = 3 -> forall ex ey ez, 0 <= ex < nx - 1 -> 0 <= ey < ny - 1 -> 0 <= ez < nz - 1 ->
    aget (v_etype V) (ez * (nx - 1) * (ny - 1) + ey * (nx - 1) + ex) = Some (class3 V ex ey ez) }.

Theorem construct_ok fuel orc j dim nx ny nz mtype mp mt ps : valid_args dim nx ny nz mtype mp mt ps -> total_junk j ->
  match construct fuel orc j dim [nx; ny; nz] mtype mp mt ps with
  | Ok o => fresh_obj o /\ (exists tol, j_tol j = Some tol /\ env_of dim nx ny nz mtype mp mt ps tol (o_env o)) /\
      o_header o = false /\ o_inv_max o = None /\ o_params o = map (lget mp) (zrange 0 5) /\
      exists A, (if dim =? 2 then ell_init_2D 2 nx ny else ell_init_3D 3 nx ny nz) = Ok A /\
      calc_ctan_lin fuel orc (o_env o)
        (mkWork (alloc (j_u j) (ndofs (o_env o))) (malloc (ndofs (o_env o))) (malloc (ndofs (o_env o))) A
           (alloc (j_vold j) (nvars (o_env o))) (alloc (j_vnew j) (nvars (o_env o)))) (malloc 36) = Ok (o_work o, o_ctan o)
  | Err e => bad fuel orc e
  end.
Proof.
  intros [Hd Hx Hy Ht Hmp (t0 & t1 & r & -> & T0 & T1) Hps] [Ju Jo Jn (tol & Jt)]. unfold construct, make_env.
  change (arg [nx; ny; nz] 0) with (@Ok Z nx). change (arg [nx; ny; nz] 1) with (@Ok Z ny). change (arg [nx; ny; nz] 2) with (@Ok Z nz).
  rewrite !arg_ok by lia. cbn [bind]. rewrite Jt. cbn [of_option].
  set (nz' := if dim =? 2 then 1 else nz).
  replace (if dim =? 2 then Ok 1 else Ok nz) with (@Ok Z nz') by (unfold nz'; destruct (dim =? 2); reflexivity). cbn [bind].
  set (lz := if dim =? 2 then dec 0 1 else lget mp 2).
  replace (if dim =? 2 then Ok (dec 0 1) else Ok (lget mp 2)) with (@Ok T lz) by (unfold lz; destruct (dim =? 2); reflexivity). cbn [bind].
  replace (negb ((dim =? 2) || (dim =? 3))) with false by (destruct Hd as [->|(-> & _)]; reflexivity).
  replace (negb ((mtype =? 0) || (mtype =? 1))) with false by (destruct Ht as [->| ->]; reflexivity).
  rewrite (mapM_ok (arg mp) (lget mp)) by (intros i Hi; apply in_zrange in Hi; apply arg_ok; lia). cbn [bind].
  rewrite (mats_ok t0 t1 r ps Hps). cbn [bind]. cbn [v_dim v_nx v_ny v_nz v_lx v_ly v_lz v_dx v_dy v_dz v_width v_inv_tol v_type v_etype].
  set (V0 := mkEnv dim nx ny nz' (lget mp 0) (lget mp 1) lz (odiv (lget mp 0) (ofZ (nx - 1))) (odiv (lget mp 1) (ofZ (ny - 1))) (odiv lz (ofZ (nz' - 1)))
     (lget mp 3) tol mtype [mat_i t0 ps 0; mat_i t1 ps 1] (malloc (nelem dim nx ny nz'))).
  destruct (fill_types_ok V0) as (et & Ee & Le & G2 & G3); [cbn; tauto|exact Ht|reflexivity|]. rewrite Ee. cbn [bind].
  set (V := mkEnv dim nx ny nz' (lget mp 0) (lget mp 1) lz (odiv (lget mp 0) (ofZ (nx - 1))) (odiv (lget mp 1) (ofZ (ny - 1))) (odiv lz (ofZ (nz' - 1)))
     (lget mp 3) tol mtype [mat_i t0 ps 0; mat_i t1 ps 1] et).
  assert (Hnz : dim = 3 -> nz' = nz /\ 2 <= nz) by (intros ->; unfold nz'; cbn; destruct Hd as [?|?]; [discriminate|tauto]).
  assert (EV : env_of dim nx ny nz mtype mp (t0 :: t1 :: r) ps tol V).
  { constructor; try reflexivity.
    - eauto.
    - intros D ex ey Hex Hey. cbn [v_etype V]. specialize (G2 D ex ey). unfold ix2, glo_elem3D in G2. cbn [v_nx v_ny V0] in G2.
      replace (ey * (nx - 1) + ex) with (0 * (nx - 1) * (ny - 1) + ey * (nx - 1) + ex) by ring. rewrite G2; [reflexivity|]. apply in_els2. cbn. lia.
    - intros D ex ey ez Hex Hey Hez. cbn [v_etype V]. specialize (G3 D ex ey ez). unfold ix3, glo_elem3D in G3. cbn [v_nx v_ny V0] in G3.
      rewrite G3; [reflexivity|]. apply in_els3. cbn. destruct (Hnz D) as (-> & _). lia. }
  assert (S : sane V).
  { constructor.
    - cbn. destruct Hd as [->|(-> & Hz)]; [left|right]; cbn; auto.
    - exact Hx.
    - exact Hy.
    - exact Ht.
    - intros k Hk. cbn [v_mats V]. destruct (flags_plast t0 T0) as (b0 & B0). destruct (flags_plast t1 T1) as (b1 & B1).
      destruct k as [|[|k]]; [exists (mat_i t0 ps 0), b0|exists (mat_i t1 ps 1), b1|lia]; (split; [reflexivity|assumption]).
    - intros e He. cbn [v_etype V]. assert (S0 : (v_dim V0 = 2 /\ v_nz V0 = 1) \/ (v_dim V0 = 3 /\ 2 <= v_nz V0)).
      { cbn. destruct Hd as [->|(-> & Hz)]; [left|right]; cbn; auto. }
      destruct Hd as [D|(D & _)].
      + destruct (cells2_cover V0 e Hx Hy D He) as ((ex, ey) & Hin & <-). exists (class2 V0 ex ey). exact (G2 D ex ey Hin).
      + destruct (Hnz D) as (Ez & Hz). assert (Hz' : 2 <= v_nz V0) by (cbn; lia).
        destruct (cells3_cover V0 e Hx Hy Hz' D He) as (((ex, ey), ez) & Hin & <-). exists (class3 V0 ex ey ez). exact (G3 D ex ey ez Hin). }
  assert (HA : exists A, (if dim =? 2 then ell_init_2D 2 nx ny else ell_init_3D 3 nx ny nz') = Ok A /\ is_mat V A).
  { unfold is_mat. cbn [v_dim v_nx v_ny v_nz V]. destruct (dim_cases V S) as [D|D]; cbn in D; rewrite D; cbn [Z.eqb Pos.eqb].
    - destruct (init_2D_ok (T:=T) 2 nx ny) as (m & E & _); try assumption; [lia|]. exists m. split; [exact E|]. exists m, (e_vals m). split; [exact E|]. split; [reflexivity|now destruct m].
    - destruct (Hnz D) as (-> & Hz). destruct (init_3D_ok (T:=T) 3 nx ny nz) as (m & E & _); try assumption; [lia|]. exists m. split; [exact E|]. exists m, (e_vals m). split; [exact E|]. split; [reflexivity|now destruct m]. }
  destruct HA as (A & EA & MA).
  replace (if dim =? 2 then ell_init_2D 2 nx ny else ell_init_3D 3 nx ny nz') with (@Ok (ell T) A). cbn [bind].
  set (w := mkWork (alloc (j_u j) (ndofs V)) (malloc (ndofs V)) (malloc (ndofs V)) A (alloc (j_vold j) (nvars V)) (alloc (j_vnew j) (nvars V))).
  pose proof (alloc_full (j_vold j) (nvars V) Jo) as Fo. pose proof (alloc_full (j_vnew j) (nvars V) Jn) as Fn.
  assert (W : wfull V w).
  { split; [|split; assumption]. constructor; cbn; try reflexivity; [exact (alloc_full (j_u j) (ndofs V) Ju)|exact MA|].
    intros e g i He Hg Hi _. apply (proj2 Fo). rewrite nvars_eq. unfold intvar_ix. lia. }
  pose proof (ctan_lin_ok V fuel orc w (malloc 36) S W eq_refl) as X. fold w.
  destruct (calc_ctan_lin fuel orc V w (malloc 36)) as [(w', c')|e] eqn:Ec; cbn [bind fst snd]; [|exact X].
  destruct X as (W' & O' & Lc & Pc & _).
  split; [split; [|reflexivity]; constructor; cbn; try assumption; try reflexivity; constructor|].
  split; [exists tol; split; [reflexivity|exact EV]|]. do 3 (split; [reflexivity|]).
  exists A. split; [|exact Ec]. rewrite <- EA. unfold nz'. destruct (dim =? 2); reflexivity.
Qed.
End Build.
