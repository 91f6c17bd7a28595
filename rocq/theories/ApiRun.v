(** The object under any sequence of calls, over any arithmetic. *)
From Coq Require Import ZifyBool.
From Verif Require Import Base Scalar EllSpec EllModel EllFinal Grid AssemblyModel AsmPure AsmRun MicroModel OutputModel NewtonBase ApiBase FieldsBase.

Lemma mapM_dich {A B} (f : A -> res B) (e : err) l : (forall x, In x l -> (exists y, f x = Ok y) \/ f x = Err e) ->
  (exists r, mapM f l = Ok r) \/ mapM f l = Err e.
Proof.
  intros H. induction l as [|a l IH]; [left; now exists []|]. cbn [mapM].
  destruct (H a) as [(y & ->)| ->]; [now left| |]; cbn [bind]; [|now right].
  destruct IH as [(r & ->)| ->]; [intros x Hx; apply H; now right| |]; cbn [bind]; eauto.
Qed.
Lemma mapM_some {A B} (f : A -> res B) l : (forall x, In x l -> exists y, f x = Ok y) -> exists r, mapM f l = Ok r.
Proof.
  intros H. induction l as [|a l IH]; [now exists []|]. cbn [mapM]. destruct (H a) as (y & ->); [now left|]. cbn [bind].
  destruct IH as (r & ->); [intros x Hx; apply H; now right|]. cbn [bind]. eauto.
Qed.
Lemma mapM_Forall2 {A B} (f : A -> res B) l r : mapM f l = Ok r -> Forall2 (fun x y => f x = Ok y) l r.
Proof.
  revert r. induction l as [|a l IH]; cbn [mapM]; intros r E; [injection E as <-; constructor|].
  destruct (f a) as [y|] eqn:Ea; [|discriminate]. cbn [bind] in E. destruct (mapM f l) as [ys|] eqn:El; [|discriminate].
  cbn [bind] in E. injection E as <-. constructor; auto.
Qed.
Lemma mapM_length {A B} (f : A -> res B) l r : mapM f l = Ok r -> length r = length l.
Proof. intros E. apply mapM_Forall2 in E. induction E; cbn; congruence. Qed.
Lemma rd_dich {A} (a : arr A) i : 0 <= i < alen a -> (exists y, rd a i = Ok y) \/ rd a i = Err Uninit.
Proof. intros H. unfold rd, inb. replace ((0 <=? i) && (i <? alen a))%bool with true by lia. destruct FMapPositive.PositiveMap.find; cbn; eauto. Qed.
Lemma rdl_dich {A} (a : arr A) n : n <= alen a -> (exists y, rdl a n = Ok y) \/ rdl a n = Err Uninit.
Proof. intros H. apply mapM_dich. intros i Hi. apply in_zrange in Hi. apply rd_dich. lia. Qed.

Section Run.
Context {T : Type} `{OT : Ops T}.
Implicit Types (V : env T) (w : work T) (g : gp T) (o : obj T).

(** ** Files *)
Lemma emit_dich {A} (f : A -> res (list (tok T))) (e : err) l : (forall x, In x l -> (exists y, f x = Ok y) \/ f x = Err e) ->
  (exists r, emit f l = Ok r) \/ emit f l = Err e.
Proof. intros H. unfold emit. destruct (mapM_dich f e l H) as [(r & ->)| ->]; cbn [bind]; eauto. Qed.
Lemma emit_some {A} (f : A -> res (list (tok T))) l : (forall x, In x l -> exists y, f x = Ok y) -> exists r, emit f l = Ok r.
Proof. intros H. unfold emit. destruct (mapM_some f l H) as (r & ->). cbn [bind]. eauto. Qed.

Lemma vcells_eq V : vcells V = ncells V.
Proof. reflexivity. Qed.
Lemma ncells_pos V : sane V -> 0 <= ncells V.
Proof. intros S. pose proof (nvars_pos V S). rewrite nvars_eq in H. lia. Qed.

Lemma vtu_nodal_some V a : sane V -> full a (ndofs V) -> exists t, vtu_nodal V a = Ok t.
Proof.
  intros S F. apply emit_some. intros n Hn. apply in_zrange in Hn. unfold ndofs in F.
  assert (X : forall i, 0 <= i < nn V * v_dim V -> exists x, rd a i = Ok x).
  { intros i Hi. destruct (proj2 F i Hi) as (x & E). exists x. now apply rd_aget. }
  destruct (dim_cases V S) as [D|D]; rewrite D in *; cbn [Z.eqb Pos.eqb].
  - destruct (X (n * 2)) as (x & ->); [nia|]. destruct (X (n * 2 + 1)) as (y & ->); [nia|]. cbn [bind]. eauto.
  - destruct (X (n * 3)) as (x & ->); [nia|]. destruct (X (n * 3 + 1)) as (y & ->); [nia|]. destruct (X (n * 3 + 2)) as (z & ->); [nia|]. cbn [bind]. eauto.
Qed.
Lemma vtu_cell_some V a : sane V -> full a (ncells V * nvoi V) -> exists t, vtu_cell V a = Ok t.
Proof.
  intros S F. pose proof (nvoi_range V S). apply emit_some. intros e He. apply in_zrange in He. rewrite vcells_eq in He.
  destruct (emit_some (fun v => x <- rd a (e * nvoi V + v) ;; Ok [TD x; sp]) (zrange 0 (nvoi V))) as (t & ->); [|cbn [bind]; eauto].
  intros v Hv. apply in_zrange in Hv. destruct (proj2 F (e * nvoi V + v)) as (x & E); [nia|]. rewrite (rd_aget _ _ _ E). cbn [bind]. eauto.
Qed.
Lemma vtu_etype_some V : sane V -> exists t, vtu_etype V = Ok t.
Proof.
  intros S. unfold vtu_etype. destruct (emit_some (fun e => x <- rd (v_etype V) e ;; Ok [TI x; sp]) (zrange 0 (vcells V))) as (t & ->); [|cbn [bind]; eauto].
  intros e He. apply in_zrange in He. rewrite vcells_eq in He. destruct (sa_etype V S e He) as (x & E). rewrite (rd_aget _ _ _ E). cbn [bind]. eauto.
Qed.
Lemma sumM_some {A} (l : list A) (f : A -> res T) : (forall a, In a l -> exists x, f a = Ok x) -> exists x, sumM l f = Ok x.
Proof.
  unfold sumM. generalize (ofZ 0 : T). induction l as [|a l IH]; intros x H; cbn [foldM]; [eauto|].
  destruct (H a) as (y & ->); [now left|]. cbn [bind]. apply IH. intros b Hb. apply H. now right.
Qed.
Lemma vtu_plast_some V v : sane V -> full v (nvars V) -> exists t, vtu_plast V v = Ok t.
Proof.
  intros S F. rewrite nvars_eq in F. unfold vtu_plast.
  match goal with |- context [emit ?f ?l] => destruct (emit_some f l) as (t & ->); [|cbn [bind]; eauto] end.
  intros e He. apply in_zrange in He. rewrite vcells_eq in He. destruct (v_dim V =? 3); cbn [bind]; [|eauto].
  match goal with |- context [sumM ?l ?f] => destruct (sumM_some l f) as (x & ->); [|cbn [bind]; eauto] end.
  intros q Hq. apply in_zrange in Hq. destruct (mapM_some (fun i => rd v (intvar_ix e q i)) (zrange 0 6)) as (l & ->); [|cbn [bind]; eauto].
  intros i Hi. apply in_zrange in Hi. destruct (proj2 F (intvar_ix e q i)) as (x & E); [unfold intvar_ix; lia|]. exists x. now apply rd_aget.
Qed.
Lemma vtu_hard_some V v : sane V -> full v (nvars V) -> exists t, vtu_hard V v = Ok t.
Proof.
  intros S F. rewrite nvars_eq in F. unfold vtu_hard.
  match goal with |- context [emit ?f ?l] => destruct (emit_some f l) as (t & ->); [|cbn [bind]; eauto] end.
  intros e He. apply in_zrange in He. rewrite vcells_eq in He. destruct (v_dim V =? 3); cbn [bind]; [|eauto].
  match goal with |- context [sumM ?l ?f] => destruct (sumM_some l f) as (x & ->); [|cbn [bind]; eauto] end.
  intros q Hq. apply in_zrange in Hq. destruct (proj2 F (intvar_ix e q 6)) as (x & E); [unfold intvar_ix; lia|]. exists x. now apply rd_aget.
Qed.

(** ** calc_fields *)
Lemma cells3_cover V c : 2 <= v_nx V -> 2 <= v_ny V -> 2 <= v_nz V -> v_dim V = 3 -> 0 <= c < ncells V ->
  exists e, In e (els3 V) /\ ix3 V e = c.
Proof.
  intros Sx Sy Sz D Hc.
  unfold ncells, nelem in Hc. rewrite D in Hc. cbn [Z.eqb Pos.eqb] in Hc.
  set (a := v_nx V - 1) in *. set (b := v_ny V - 1) in *. assert (0 < a /\ 0 < b) as (Ha & Hb) by (unfold a, b; lia).
  pose proof (Z.div_mod c (a * b) ltac:(nia)) as E1. pose proof (Z.mod_pos_bound c (a * b) ltac:(nia)) as M1.
  set (r := c mod (a * b)) in *. set (q := c / (a * b)) in *.
  pose proof (Z.div_mod r a ltac:(nia)) as E2. pose proof (Z.mod_pos_bound r a ltac:(nia)) as M2.
  set (r2 := r mod a) in *. set (q2 := r / a) in *.
  assert (Hq : 0 <= q < v_nz V - 1) by (split; [apply Z.div_pos; nia|apply Z.div_lt_upper_bound; nia]).
  assert (Hq2 : 0 <= q2 < b) by (split; [apply Z.div_pos; nia|apply Z.div_lt_upper_bound; nia]).
  exists (r2, q2, q). split.
  - apply in_els3. fold a b. lia.
  - unfold ix3, glo_elem3D. fold a b. nia.
Qed.
Lemma cells2_cover V c : 2 <= v_nx V -> 2 <= v_ny V -> v_dim V = 2 -> 0 <= c < ncells V ->
  exists e, In e (els2 V) /\ ix2 V e = c.
Proof.
  intros Sx Sy D Hc.
  unfold ncells, nelem in Hc. rewrite D in Hc. cbn [Z.eqb Pos.eqb] in Hc.
  set (a := v_nx V - 1) in *. set (b := v_ny V - 1) in *. assert (0 < a /\ 0 < b) as (Ha & Hb) by (unfold a, b; lia).
  pose proof (Z.div_mod c a ltac:(nia)) as E2. pose proof (Z.mod_pos_bound c a ltac:(nia)) as M2.
  set (r2 := c mod a) in *. set (q2 := c / a) in *.
  assert (Hq2 : 0 <= q2 < b) by (split; [apply Z.div_pos; nia|apply Z.div_lt_upper_bound; nia]).
  exists (r2, q2). split.
  - apply in_els2. fold a b. lia.
  - unfold ix2, glo_elem3D. fold a b. nia.
Qed.

Lemma fields_ok V u vold vnew es et : sane V -> full u (ndofs V) -> has_old V vold -> full vnew (nvars V) ->
  alen es = ncells V * nvoi V -> alen et = ncells V * nvoi V ->
  exists es' et' vnew', calc_fields V u vold vnew es et = Ok (es', et', vnew') /\ full es' (ncells V * nvoi V) /\
    full et' (ncells V * nvoi V) /\ full vnew' (nvars V).
Proof.
  intros S U O L Ls Lt. pose proof (full_oval _ _ U) as RU. destruct (nvoi_cases V S) as [(D & N)|(D & N)]; rewrite N in *.
  - rewrite (ndofs_eq2 V S D) in *.
    destruct (fields2_ok V (oval u) u vold vnew es et S D RU Ls Lt) as (es' & et' & E & L1 & L2 & G).
    exists es', et', vnew. split; [exact E|]. split; [|split; [|exact L]]; (split; [assumption|]); intros i Hi;
      (destruct (cells2_cover V (i / 3) (sa_nx V S) (sa_ny V S) D) as (e & He & Ee); [pose proof (Z.div_mod i 3 ltac:(lia)); pose proof (Z.mod_pos_bound i 3 ltac:(lia)); split; [apply Z.div_pos; lia|apply Z.div_lt_upper_bound; lia]|]);
      pose proof (Z.mod_pos_bound i 3 ltac:(lia)) as M; destruct (G e (i mod 3) He M) as (G1 & G2); rewrite Ee in *;
      replace (i / 3 * 3 + i mod 3) with i in * by (rewrite (Z.div_mod i 3) at 1 by lia; ring); eauto.
  - rewrite (ndofs_eq3 V D) in *. pose proof (full_alen _ _ L) as Lv. rewrite nvars_eq in Lv.
    destruct (fields3_ok V (oval u) (oval vold) u vold vnew es et S D RU (has_old_ok _ _ O) Lv Ls Lt) as (es' & et' & vn & E & L1 & L2 & Rv & G).
    exists es', et', vn. split; [exact E|]. split; [|split; [|eapply run_stores_full; eassumption]]; (split; [assumption|]); intros i Hi;
      (destruct (cells3_cover V (i / 6) (sa_nx V S) (sa_ny V S) (sane_nz V S D) D) as (e & He & Ee); [pose proof (Z.div_mod i 6 ltac:(lia)); pose proof (Z.mod_pos_bound i 6 ltac:(lia)); split; [apply Z.div_pos; lia|apply Z.div_lt_upper_bound; lia]|]);
      pose proof (Z.mod_pos_bound i 6 ltac:(lia)) as M; destruct (G e (i mod 6) He M) as (G1 & G2); rewrite Ee in *;
      replace (i / 6 * 6 + i mod 6) with i in * by (rewrite (Z.div_mod i 6) at 1 by lia; ring); eauto.
Qed.

Lemma body_b V w r : sane V -> wok V w -> newton_body V w = Ok r -> full (w_b (fst (fst (fst r)))) (ndofs V).
Proof.
  intros S K E. destruct K as [U Ldu Lb A O L].
  destruct (rhs_ok V _ _ _ _ S U O L Lb) as (b & nl & vn & er & Er & Fb & _). unfold newton_body in E. rewrite Er in E. cbn [bind] in E.
  destruct (oltb er nr_tol).
  - injection E as <-. exact Fb.
  - destruct assembly_mat as [m|]; [|discriminate]. cbn [bind] in E.
    destruct run_stores as [du|]; [|discriminate]. cbn [bind] in E.
    destruct solve as [du'|]; [|discriminate]. cbn [bind] in E.
    destruct upd_for as [u|]; [|discriminate]. cbn [bind] in E. injection E as <-. exact Fb.
Qed.
Lemma newton_wfull V pk fuel w r : sane V -> wfull V w -> newton fuel pk V w = Ok r ->
  wfull V (fst (fst (fst r))) /\ full (w_b (fst (fst (fst r)))) (ndofs V) /\ w_vold (fst (fst (fst r))) = w_vold w.
Proof.
  intros S (K & Fo & Fn) E. pose proof (newton_ok V pk fuel w S K) as H. rewrite E in H. destruct r as (((w', nl), its), er).
  destruct H as (_ & K' & O & F & _ & n & w0 & brk & _ & _ & K0 & _ & B & _). cbn [fst]. split; [|split; [|exact O]].
  - split; [exact K'|]. rewrite O. auto.
  - exact (body_b V w0 _ S K0 B).
Qed.

(** ** The object *)
Record obj_ok o : Prop := {
  ok_sane : sane (o_env o);
  ok_work : wfull (o_env o) (o_work o);
  ok_ctan : pfull (o_ctan o) (nvoi (o_env o) * nvoi (o_env o));
  ok_gps : Forall (fun g => gp_ok (o_env o) g /\ (gp_done (o_env o) g \/ gp_fresh g)) (o_gps o);
  ok_ids : NoDup (map g_id (o_gps o));
  ok_es : alen (o_estrain o) = ncells (o_env o) * nvoi (o_env o);
  ok_et : alen (o_estress o) = ncells (o_env o) * nvoi (o_env o) }.

Lemma lookup_in id l g : lookup id l = Some g -> In g l /\ g_id g = id.
Proof.
  induction l as [|a l IH]; cbn [lookup]; [discriminate|]. destruct (Z.eqb_spec (g_id a) id) as [E|E].
  - intros [= ->]. split; [now left|exact E].
  - intros H. destruct (IH H). split; [now right|assumption].
Qed.
Lemma lookup_none id (l : list (gp T)) : lookup id l = None <-> ~ In id (map g_id l).
Proof.
  induction l as [|a l IH]; cbn [lookup map In]; [tauto|]. destruct (Z.eqb_spec (g_id a) id) as [E|E].
  - split; [discriminate|]. intros H. elim H. now left.
  - rewrite IH. tauto.
Qed.
Lemma lookup_ok o id g : obj_ok o -> lookup id (o_gps o) = Some g -> gp_ok (o_env o) g /\ (gp_done (o_env o) g \/ gp_fresh g).
Proof. intros K E. apply lookup_in in E. pose proof (ok_gps o K) as F. rewrite Forall_forall in F. now apply F. Qed.

(** set_macro_strain *)
Definition strain_is V g (eps : list T) : Prop := forall i, 0 <= i < nvoi V -> aget (g_strain g) i = Some (lget eps i).
Lemma set_strain_ok V id eps l : sane V -> Forall (fun g => gp_ok V g /\ (gp_done V g \/ gp_fresh g)) l ->
  exists l', set_strain V id eps l = Ok l' /\ Forall (fun g => gp_ok V g /\ (gp_done V g \/ gp_fresh g)) l' /\
    map g_id l' = (if in_dec Z.eq_dec id (map g_id l) then map g_id l else map g_id l ++ [id]) /\
    (forall id', id' <> id -> lookup id' l' = lookup id' l) /\
    exists g', lookup id l' = Some g' /\ strain_is V g' eps /\
      match lookup id l with Some g => g' = with_strain g (g_strain g') | None => gp_fresh g' /\ g_inv g' = inv_min end.
Proof.
  intros S. pose proof (nvoi_range V S) as Nv. induction l as [|g l IH]; intros F.
  - cbn [set_strain]. unfold new_gp, wrl. destruct (fill_ok (lget eps) (nvoi V) (malloc 6)) as (e & Ee & Le & Pe & Ge & _); [cbn; lia|].
    rewrite Ee. cbn [bind]. eexists. split; [reflexivity|].
    assert (Fr : gp_fresh (mkGp id (malloc 7) None None e (malloc 6) (malloc 36) (malloc 7) inv_min)) by (repeat split; reflexivity).
    split.
    + constructor; [|constructor]. split; [|now right]. constructor; cbn; try reflexivity; try assumption.
    + split; [reflexivity|]. split.
      * intros id' Hne. cbn. destruct (Z.eqb_spec id id'); [lia|reflexivity].
      * eexists. cbn. rewrite Z.eqb_refl. split; [reflexivity|]. split; [exact Ge|]. split; [exact Fr|reflexivity].
  - inversion F as [|g0 l0 (Gg & Gd) Fl]; subst. cbn [set_strain lookup map]. destruct (Z.eqb_spec (g_id g) id) as [E|E].
    + unfold wrl. destruct (fill_ok (lget eps) (nvoi V) (g_strain g)) as (e & Ee & Le & Pe & Ge & _); [rewrite (go_strain V g Gg); lia|].
      rewrite Ee. cbn [bind]. eexists. split; [reflexivity|]. split.
      * constructor; [|exact Fl]. destruct Gg. split; [constructor; cbn; try assumption; congruence|exact Gd].
      * split.
        { destruct (in_dec Z.eq_dec id (g_id g :: map g_id l)) as [_|N]; [reflexivity|]. elim N. now left. }
        split.
        { intros id' Hne. cbn. destruct (Z.eqb_spec (g_id g) id'); [congruence|reflexivity]. }
        eexists. cbn. rewrite E, Z.eqb_refl. split; [reflexivity|]. split; [exact Ge|]. reflexivity.
    + destruct (IH Fl) as (l' & El & F' & M' & O' & g' & L' & S' & X'). rewrite El. cbn [bind]. eexists. split; [reflexivity|].
      split; [constructor; [now split|exact F']|]. split.
      { cbn [map]. rewrite M'. destruct (in_dec Z.eq_dec id (map g_id l)) as [I|N], (in_dec Z.eq_dec id (g_id g :: map g_id l)) as [I'|N'];
          try reflexivity; [elim N'; now right|]. destruct I' as [I'|I']; [congruence|contradiction]. }
      split.
      { intros id' Hne. cbn [lookup]. destruct (g_id g =? id'); [reflexivity|]. now apply O'. }
      exists g'. cbn [lookup]. destruct (Z.eqb_spec (g_id g) id); [congruence|]. auto.
Qed.

(** homogenize *)
Definition homog_rel (fuel : nat) (orc : Z -> Z -> peek) V c g g' : Prop := exists j w w' inv, wfull V w /\ gp_ok V g /\
  homog_gp fuel (orc j) V c w g = Ok (w', inv, g') /\ homog_post V c w g (w', inv, g').
Definition bad2 (fuel : nat) (orc : Z -> Z -> peek) (e : err) : Prop := exists j i, nbad fuel (orc j i) e.
Lemma homog_list_ok V fuel orc c l w inv : sane V -> wfull V w -> pfull c (nvoi V * nvoi V) ->
  Forall (fun g => gp_ok V g) l ->
  match homog_list fuel orc V c l w inv with
  | Ok (w', inv', l', _) => wfull V w' /\ Forall2 (homog_rel fuel orc V c) l l' /\ inv' = last (map (fun g => Some (g_inv g)) l') inv
  | Err e => bad2 fuel orc e
  end.
Proof.
  intros S W C F. unfold homog_list.
  match goal with |- match foldM ?f _ _ with _ => _ end => set (ff := f) end.
  assert (X : forall l w inv pre done j, wfull V w -> Forall (fun g => gp_ok V g) l -> Forall2 (homog_rel fuel orc V c) pre done ->
    match foldM ff l (w, inv, done, j) with
    | Ok (w', inv', l', _) => wfull V w' /\ exists d2, l' = done ++ d2 /\ Forall2 (homog_rel fuel orc V c) l d2 /\ inv' = last (map (fun g => Some (g_inv g)) d2) inv
    | Err e => bad2 fuel orc e
    end).
  { clear l w inv W F. induction l as [|g l IH]; intros w inv pre done j W F P.
    - cbn [foldM]. split; [exact W|]. exists []. rewrite app_nil_r. auto.
    - inversion F as [|g0 l0 Gg Fl]; subst. cbn [foldM]. unfold ff at 1.
      pose proof (homog_gp_ok V fuel (orc j) c w g S W C Gg) as H.
      destruct (homog_gp fuel (orc j) V c w g) as [((w1, inv1), g1)|e] eqn:E; cbn [bind].
      + assert (R : homog_rel fuel orc V c g g1) by (exists j, w, w1, inv1; auto).
        specialize (IH w1 (Some inv1) (pre ++ [g]) (done ++ [g1]) (j + 1) (proj1 H) Fl ltac:(now apply Forall2_app; [|constructor])).
        destruct (foldM ff l (w1, Some inv1, done ++ [g1], j + 1)) as [(((w', inv'), l'), j')|e]; [|exact IH].
        destruct IH as (W' & d2 & -> & P2 & Ei). split; [exact W'|]. exists (g1 :: d2). rewrite <- app_assoc. split; [reflexivity|].
        split; [now constructor|]. rewrite Ei. cbn [map]. destruct H as (_ & _ & _ & _ & _ & _ & Hi & _). rewrite <- Hi.
        destruct d2 as [|g2 d2]; [reflexivity|]. cbn [map]. symmetry. etransitivity; [|apply (last_indep _ _ inv)]. reflexivity.
      + destruct H as (i & H). exists j, i. exact H. }
  specialize (X l w inv [] [] 0 W F ltac:(constructor)).
  destruct (foldM ff l (w, inv, [], 0)) as [(((w', inv'), l'), j')|e]; [|exact X].
  destruct X as (W' & d2 & -> & P & E). auto.
Qed.
Lemma rel_ids (R : gp T -> gp T -> Prop) l l' : (forall g g', R g g' -> g_id g' = g_id g) -> Forall2 R l l' -> map g_id l' = map g_id l.
Proof. intros H F. induction F; cbn [map]; [reflexivity|]. f_equal; auto. Qed.
Lemma rel_lookup (R : gp T -> gp T -> Prop) l l' id : (forall g g', R g g' -> g_id g' = g_id g) -> Forall2 R l l' ->
  match lookup id l, lookup id l' with Some g, Some g' => R g g' | None, None => True | _, _ => False end.
Proof.
  intros H F. induction F as [|g g' l l' Rg F IH]; cbn [lookup]; [exact I|]. rewrite (H _ _ Rg).
  destruct (g_id g =? id); [exact Rg|exact IH].
Qed.
Lemma homog_rel_id fuel orc V c g g' : homog_rel fuel orc V c g g' -> g_id g' = g_id g.
Proof. intros (j & w & w1 & inv & _ & _ & _ & (_ & _ & _ & E & _)). exact E. Qed.

(** update_vars *)
Definition upd_rel V g g' : Prop :=
  g_id g' = g_id g /\ g_its g' = g_its g /\ g_strain g' = g_strain g /\ g_stress g' = g_stress g /\ g_ctan g' = g_ctan g /\
  g_err g' = g_err g /\ g_inv g' = g_inv g /\ g_k g' = g_k g /\
  match g_n g, g_k g with
  | Some _, Some k => exists n', g_n g' = Some n' /\ full n' (nvars V) /\ forall i, aget n' i = aget k i
  | _, _ => g_n g' = None /\ g_n g = None
  end.
Lemma update_gp_ok V g : sane V -> gp_ok V g -> exists g', update_gp V g = Ok g' /\ upd_rel V g g' /\ gp_ok V g'.
Proof.
  intros S G. unfold update_gp, upd_rel. pose proof (go_vars V g G) as Gv. destruct G as [G1 G2 G3 G4 G5 G6 G7 G8].
  destruct (g_n g) as [n|] eqn:En, (g_k g) as [k|] eqn:Ek; try contradiction.
  - destruct Gv as (Fn & Fk). cbn [of_option bind]. destruct (copy_ok V k n S Fk (full_alen _ _ Fn)) as (n' & E & F & H). rewrite E. cbn [bind].
    eexists. split; [reflexivity|]. cbn. split.
    + do 7 (split; [reflexivity|]). split; [congruence|]. eauto.
    + constructor; cbn; try assumption; [auto|]. intros D. specialize (G8 D). discriminate.
  - exists g. split; [reflexivity|]. split; [|constructor; try assumption; rewrite ?En, ?Ek; auto].
    do 7 (split; [reflexivity|]). split; [congruence|]. auto.
Qed.
Lemma update_vars_ok o : obj_ok o -> exists l', update_vars o = Ok (set_gps o l') /\ Forall2 (upd_rel (o_env o)) (o_gps o) l' /\
  Forall (fun g => gp_ok (o_env o) g /\ (gp_done (o_env o) g \/ gp_fresh g)) l'.
Proof.
  intros K. unfold update_vars. pose proof (ok_sane o K) as S. pose proof (ok_gps o K) as F.
  assert (X : exists l', mapM (update_gp (o_env o)) (o_gps o) = Ok l' /\ Forall2 (upd_rel (o_env o)) (o_gps o) l' /\
    Forall (fun g => gp_ok (o_env o) g /\ (gp_done (o_env o) g \/ gp_fresh g)) l').
  { induction F as [|g l (Gg & Gd) F IH]; [exists []; repeat split; constructor|]. destruct IH as (l' & E & F2 & F').
    cbn [mapM]. destruct (update_gp_ok (o_env o) g S Gg) as (g' & Eg & R & Gg'). rewrite Eg. cbn [bind]. rewrite E. cbn [bind].
    exists (g' :: l'). split; [reflexivity|]. split; [now constructor|]. constructor; [|exact F']. split; [exact Gg'|].
    destruct R as (R1 & R2 & R3 & R4 & R5 & R6 & R7 & R8 & R9). destruct Gd as [(D1 & D2 & D3 & D4)|(D1 & D2 & D3 & D4 & D5 & D6)].
    - left. unfold gp_done. rewrite R2, R4, R5, R6. auto.
    - right. unfold gp_fresh. rewrite R2, R4, R5, R6, R8. rewrite D5, D6 in *. destruct R9. repeat split; auto. }
  destruct X as (l' & E & X). exists l'. rewrite E. split; [reflexivity|exact X].
Qed.

(** output *)
Lemma output_ok o fs fuel pk t id : obj_ok o ->
  match output fuel pk t id o fs with
  | Ok (o', fs') => exists w es et, o' = with_work o w es et /\ wfull (o_env o) w /\
      alen es = ncells (o_env o) * nvoi (o_env o) /\ alen et = ncells (o_env o) * nvoi (o_env o) /\
      f_mats fs' = f_mats fs /\ f_conv fs' = f_conv fs /\ f_esc fs' = f_esc fs /\ f_vars fs' = f_vars fs /\
      match lookup id (o_gps o) with None => o' = o /\ fs' = fs | Some _ => exists x, f_vtu fs' = (id, t, x) :: f_vtu fs end
  | Err e => nbad fuel pk e
  end.
Proof.
  intros K. unfold output. pose proof (ok_sane o K) as S. destruct (ok_work o K) as (W & Fo & Fn).
  destruct (lookup id (o_gps o)) as [g|] eqn:El.
  - destruct (lookup_ok o id g K El) as (Gg & _).
    destruct (load_ok (o_env o) (g_n g) (w_vold (o_work o)) S (full_alen _ _ Fo)) as (vo & Eo & Fo' & _).
    { intros v Ev. pose proof (go_vars _ g Gg) as Gv. rewrite Ev in Gv. destruct (g_k g); [tauto|contradiction]. }
    rewrite Eo. cbn [bind]. rewrite (rdl_ok _ _ (go_e _ g Gg)). cbn [bind].
    destruct (displ_ok (o_env o) (map (oval (g_strain g)) (zrange 0 (nvoi (o_env o)))) _ S (wk_u _ _ W)) as (u & Eu & Fu). rewrite Eu. cbn [bind].
    set (w1 := set_u (set_vold (o_work o) vo) u).
    assert (W1 : wfull (o_env o) w1).
    { split; [|split; assumption]. destruct W as [A1 A2 A3 A4 A5 A6]. constructor; try assumption. cbn.
      intros e q i He Hq Hi _. apply (proj2 Fo'). rewrite nvars_eq. unfold intvar_ix. lia. }
    destruct (newton fuel pk (o_env o) w1) as [r|e] eqn:En; cbn [bind].
    2:{ pose proof (newton_ok (o_env o) pk fuel w1 S (proj1 W1)) as H. now rewrite En in H. }
    destruct (newton_wfull _ _ _ _ _ S W1 En) as ((W2 & Fo2 & Fn2) & Fb & Ov). set (w2 := fst (fst (fst r))) in *.
    destruct (fields_ok (o_env o) (w_u w2) (w_vold w2) (w_vnew w2) (o_estrain o) (o_estress o) S (wk_u _ _ W2) (wk_old _ _ W2) Fn2 (ok_es o K) (ok_et o K))
      as (es & et & vn & Ef & Fes & Fet & Fvn). rewrite Ef. cbn [bind fst snd].
    assert (W3 : wfull (o_env o) (set_vnew w2 vn)).
    { split; [|split; assumption]. destruct W2 as [A1 A2 A3 A4 A5 A6]. constructor; try assumption. exact (full_alen _ _ Fvn). }
    unfold write_vtu. cbn [o_env o_work with_work w_u w_b w_vold set_vnew o_estrain o_estress].
    destruct (vtu_nodal_some (o_env o) _ S (wk_u _ _ W2)) as (t1 & ->). cbn [bind].
    destruct (vtu_nodal_some (o_env o) _ S Fb) as (t2 & ->). cbn [bind].
    destruct (vtu_cell_some (o_env o) _ S Fes) as (t3 & ->). cbn [bind].
    destruct (vtu_cell_some (o_env o) _ S Fet) as (t4 & ->). cbn [bind].
    destruct (vtu_etype_some (o_env o) S) as (t5 & ->). cbn [bind].
    destruct (vtu_plast_some (o_env o) _ S Fo2) as (t6 & ->). cbn [bind].
    destruct (vtu_hard_some (o_env o) _ S Fo2) as (t7 & ->). cbn [bind].
    exists (set_vnew w2 vn), es, et. split; [reflexivity|]. split; [exact W3|]. split; [exact (full_alen _ _ Fes)|]. split; [exact (full_alen _ _ Fet)|].
    cbn. do 4 (split; [reflexivity|]). eexists. reflexivity.
  - exists (o_work o), (o_estrain o), (o_estress o). split; [destruct o; reflexivity|]. split; [split; auto|]. split; [exact (ok_es o K)|]. split; [exact (ok_et o K)|].
    do 4 (split; [reflexivity|]). auto.
Qed.

(** write_info_files *)
Definition with_header o : obj T :=
  mkObj (o_env o) (o_work o) (o_params o) (o_ctan o) (o_gps o) (o_estrain o) (o_estress o) (o_inv_max o) true.
Lemma write_info_ok o fs : obj_ok o ->
  match write_info_files o fs with
  | Ok (o', fs') => o' = with_header o /\ f_mats fs' = f_mats fs /\ f_vtu fs' = f_vtu fs
  | Err e => e = Uninit /\ exists g, In g (o_gps o) /\ (v_dim (o_env o) = 2 \/ ~ gp_done (o_env o) g)
  end.
Proof.
  intros K. pose proof (ok_sane o K) as S. pose proof (nvoi_range _ S) as Nv. pose proof (ok_gps o K) as F. rewrite Forall_forall in F.
  unfold write_info_files. set (hh := if o_header o then _ else _). destruct hh as (h1, h2).
  assert (B : (exists g, In g (o_gps o) /\ (v_dim (o_env o) = 2 \/ ~ gp_done (o_env o) g)) \/
              (forall g, In g (o_gps o) -> v_dim (o_env o) = 3 /\ gp_done (o_env o) g)).
  { assert (H : Forall (fun g => v_dim (o_env o) = 3 /\ gp_done (o_env o) g) (o_gps o) \/ Exists (fun g => v_dim (o_env o) = 2 \/ ~ gp_done (o_env o) g) (o_gps o)).
    { revert F. generalize (o_gps o) as l. clear h1 h2. intros l F. induction l as [|g l IH]; [left; constructor|].
      destruct IH as [IH|IH]; [intros x Hx; apply F; now right| |right; now apply Exists_cons_tl].
      destruct (dim_cases _ S) as [D|D]; [right; apply Exists_cons_hd; now left|].
      destruct (F g) as (_ & [Fd|Fd]); [now left| |].
      - left. now constructor.
      - right. apply Exists_cons_hd. right. intros (P1 & _). destruct Fd as (Es & _). rewrite Es in P1. destruct (P1 0) as (x & Ex); [lia|].
        unfold aget, malloc in Ex. cbn in Ex. discriminate. }
    destruct H as [H|H]; [right; now rewrite Forall_forall in H|left; now apply Exists_exists in H]. }
  assert (E1 : (exists r, conv_line (o_env o) (o_gps o) = Ok r) \/ conv_line (o_env o) (o_gps o) = Err Uninit).
  { unfold conv_line. match goal with |- context [emit ?f ?l] => destruct (emit_dich f Uninit l) as [(r & ->)| ->]; [|cbn [bind]; eauto|now right] end.
    intros g Hg. destruct (F g Hg) as (Gg & _).
    match goal with |- context [emit ?f ?l] => destruct (emit_dich f Uninit l) as [(r & ->)| ->]; [|cbn [bind]; eauto|now right] end.
    intros i Hi. apply in_zrange in Hi. destruct (rd_dich (g_its g) i) as [(y & ->)| ->]; [rewrite (go_its _ g Gg); lia| |now right]. cbn [bind].
    destruct (rd_dich (g_err g) i) as [(z & ->)| ->]; [rewrite (go_err _ g Gg); lia| |now right]. cbn [bind]. eauto. }
  assert (E2 : (exists r, esc_line (o_gps o) = Ok r) \/ esc_line (o_gps o) = Err Uninit).
  { unfold esc_line. match goal with |- context [emit ?f ?l] => destruct (emit_dich f Uninit l) as [(r & ->)| ->]; [|cbn [bind]; eauto|now right] end.
    intros g Hg. destruct (F g Hg) as (Gg & _).
    destruct (rdl_dich (g_strain g) 6) as [(y & ->)| ->]; [rewrite (go_strain _ g Gg); lia| |now right]. cbn [bind].
    destruct (rdl_dich (g_stress g) 6) as [(z & ->)| ->]; [rewrite (go_stress _ g Gg); lia| |now right]. cbn [bind].
    destruct (rdl_dich (g_ctan g) 36) as [(x & ->)| ->]; [rewrite (go_ctan _ g Gg); lia| |now right]. cbn [bind]. eauto. }
  assert (E3 : exists r, vars_line (o_env o) (o_gps o) = Ok r).
  { unfold vars_line. match goal with |- context [emit ?f ?l] => destruct (emit_some f l) as (r & ->); [|cbn [bind]; eauto] end.
    intros g Hg. destruct (F g Hg) as (Gg & _).
    match goal with |- context [emit ?f ?l] => destruct (emit_some f l) as (r & ->); [|cbn [bind]; eauto] end.
    intros i Hi. apply in_zrange in Hi. pose proof (go_vars _ g Gg) as Gv. destruct (g_n g) as [n|]; [|cbn [bind]; eauto].
    destruct (g_k g); [|contradiction]. destruct Gv as (Fn & _). destruct (proj2 Fn i Hi) as (x & E). rewrite (rd_aget _ _ _ E). cbn [bind]. eauto. }
  destruct B as [B|B].
  - destruct E1 as [(r1 & ->)| ->]; cbn [bind]; [|auto]. destruct E2 as [(r2 & ->)| ->]; cbn [bind]; [|auto]. destruct E3 as (r3 & ->). cbn [bind]. auto.
  - assert (D3 : (exists r, conv_line (o_env o) (o_gps o) = Ok r) /\ exists r, esc_line (o_gps o) = Ok r).
    { split.
      - unfold conv_line. match goal with |- context [emit ?f ?l] => destruct (emit_some f l) as (r & ->); [|cbn [bind]; eauto] end.
        intros g Hg. destruct (B g Hg) as (D & B1 & B2 & B3 & B4).
        match goal with |- context [emit ?f ?l] => destruct (emit_some f l) as (r & ->); [|cbn [bind]; eauto] end.
        intros i Hi. apply in_zrange in Hi. destruct (pfull_rd _ _ i B3 Hi) as (y & -> & _). destruct (pfull_rd _ _ i B4 Hi) as (z & -> & _). cbn [bind]. eauto.
      - unfold esc_line. match goal with |- context [emit ?f ?l] => destruct (emit_some f l) as (r & ->); [|cbn [bind]; eauto] end.
        intros g Hg. destruct (B g Hg) as (D & B1 & B2 & _). destruct (F g Hg) as (Gg & _). pose proof (go_e _ g Gg) as Ge.
        destruct (nvoi_cases _ S) as [(D' & _)|(_ & N)]; [congruence|]. rewrite N in *.
        unfold rdl. destruct (mapM_some (rd (g_strain g)) (zrange 0 6)) as (a & ->); [intros i Hi; apply in_zrange in Hi; destruct (pfull_rd _ _ i Ge Hi) as (y & -> & _); eauto|].
        destruct (mapM_some (rd (g_stress g)) (zrange 0 6)) as (b & ->); [intros i Hi; apply in_zrange in Hi; destruct (pfull_rd _ _ i B1 Hi) as (y & -> & _); eauto|].
        destruct (mapM_some (rd (g_ctan g)) (zrange 0 36)) as (c & ->); [intros i Hi; apply in_zrange in Hi; destruct (pfull_rd _ _ i B2 Hi) as (y & -> & _); eauto|].
        cbn [bind]. eauto. }
    destruct D3 as ((r1 & ->) & (r2 & ->)). destruct E3 as (r3 & ->). cbn [bind]. auto.
Qed.

(** ** One call *)
Definition allowed o (c : call T) (e : err) : Prop :=
  match c with
  | SetStrain id eps => e = OOB /\ Z.of_nat (length eps) < nvoi (o_env o)
  | GetStress id | GetCtan id => e = Uninit /\ exists g, lookup id (o_gps o) = Some g /\ gp_fresh g
  | NlFlag _ | UpdateVars => False
  | Homogenize fuel orc => bad2 fuel orc e
  | Output fuel pk _ _ => nbad fuel pk e
  | WriteInfo => e = Uninit /\ exists g, In g (o_gps o) /\ (v_dim (o_env o) = 2 \/ ~ gp_done (o_env o) g)
  end.
(** what a call does to the Gauss points *)
Definition gps_rel V c (k : call T) (l l' : list (gp T)) : Prop :=
  match k with
  | SetStrain id eps =>
    map g_id l' = (if in_dec Z.eq_dec id (map g_id l) then map g_id l else map g_id l ++ [id]) /\
    (forall id', id' <> id -> lookup id' l' = lookup id' l) /\
    exists g', lookup id l' = Some g' /\ strain_is V g' eps /\
      match lookup id l with Some g => g' = with_strain g (g_strain g') | None => gp_fresh g' /\ g_inv g' = inv_min end
  | Homogenize fuel orc => Forall2 (homog_rel fuel orc V c) l l'
  | UpdateVars => Forall2 (upd_rel V) l l'
  | _ => l' = l
  end.
Definition same_obj o o' : Prop := o_env o' = o_env o /\ o_ctan o' = o_ctan o /\ o_params o' = o_params o.

Lemma gets_dich V a n : 0 < n -> pfull a n \/ a = malloc (alen a) -> n <= alen a ->
  (pfull a n /\ rdl a n = Ok (map (oval a) (zrange 0 n))) \/ (a = malloc (alen a) /\ rdl a n = Err Uninit).
Proof.
  intros Hn [P|E] L; [left; split; [exact P|now apply rdl_ok]|]. right. split; [exact E|]. unfold rdl.
  rewrite (zrange_cons 0 n) by lia. cbn [mapM]. rewrite E. unfold rd, malloc, inb. cbn [alen].
  replace ((0 <=? 0) && (0 <? alen a))%bool with true by lia. cbn. reflexivity.
Qed.
Lemma step_ok c o fs : obj_ok o ->
  match step c (o, fs) with
  | Ok (o', fs', r) => obj_ok o' /\ same_obj o o' /\ gps_rel (o_env o) (o_ctan o) c (o_gps o) (o_gps o')
  | Err e => allowed o c e
  end.
Proof.
  intros K. pose proof (ok_sane o K) as S. pose proof (nvoi_range _ S) as Nv. pose proof (ok_gps o K) as F. destruct c; cbn [step].
  - (* SetStrain *)
    destruct (Z.ltb_spec (Z.of_nat (length eps)) (nvoi (o_env o))) as [Hl|Hl]; [split; [reflexivity|exact Hl]|].
    destruct (set_strain_ok (o_env o) id eps (o_gps o) S F) as (l' & E & F' & M & O). rewrite E. cbn [bind].
    split; [|split; [repeat split|cbn; auto]]. destruct K as [K1 K2 K3 K4 K5 K6 K7]. constructor; cbn; try assumption.
    rewrite M. destruct in_dec as [I|N]; [exact K5|]. apply (NoDup_Add (a := id) (l := map g_id (o_gps o))); [|now split].
    rewrite <- (app_nil_r (map g_id (o_gps o))) at 1. apply Add_app.
  - (* GetStress *)
    unfold get_macro_stress. destruct (lookup id (o_gps o)) as [g|] eqn:El; cbn [bind]; [|split; [exact K|split; [repeat split|reflexivity]]].
    destruct (lookup_ok o id g K El) as (Gg & Gd).
    destruct (gets_dich (o_env o) (g_stress g) (nvoi (o_env o))) as [(_ & E)|(_ & E)]; [lia| |rewrite (go_stress _ g Gg); lia|rewrite E; cbn [bind]..].
    + destruct Gd as [(D & _)|(D & _)]; [now left|right; rewrite D; reflexivity].
    + split; [exact K|split; [repeat split|reflexivity]].
    + split; [reflexivity|]. exists g. split; [exact El|]. destruct Gd as [(D & _)|D]; [|exact D]. rewrite (rdl_ok _ _ D) in E. discriminate.
  - (* GetCtan *)
    unfold get_macro_ctan. destruct (lookup id (o_gps o)) as [g|] eqn:El; cbn [bind]; [|split; [exact K|split; [repeat split|reflexivity]]].
    destruct (lookup_ok o id g K El) as (Gg & Gd). pose proof (nvoi2_range _ S) as N2.
    destruct (gets_dich (o_env o) (g_ctan g) (nvoi (o_env o) * nvoi (o_env o))) as [(_ & E)|(_ & E)]; [nia| |rewrite (go_ctan _ g Gg); lia|rewrite E; cbn [bind]..].
    + destruct Gd as [(_ & D & _)|(_ & D & _)]; [now left|right; rewrite D; reflexivity].
    + split; [exact K|split; [repeat split|reflexivity]].
    + split; [reflexivity|]. exists g. split; [exact El|]. destruct Gd as [(_ & D & _)|D]; [|exact D]. rewrite (rdl_ok _ _ D) in E. discriminate.
  - split; [exact K|split; [repeat split|reflexivity]].
  - (* Homogenize *)
    unfold homogenize.
    assert (F1 : Forall (fun g => gp_ok (o_env o) g) (o_gps o)) by (eapply Forall_impl; [|exact F]; cbv beta; tauto).
    pose proof (homog_list_ok (o_env o) fuel orc (o_ctan o) (o_gps o) (o_work o) (o_inv_max o) S (ok_work o K) (ok_ctan o K) F1) as H.
    destruct homog_list as [(((w', inv'), l'), j')|e]; cbn [bind]; [|exact H]. destruct H as (W & R & _).
    split; [|split; [repeat split|exact R]]. destruct K as [K1 K2 K3 K4 K5 K6 K7]. constructor; cbn; try assumption.
    + clear -R. induction R as [|g g' l l' Rg R IH]; [constructor|]. constructor; [|exact IH].
      destruct Rg as (jj & w & w' & inv & _ & _ & _ & (_ & G & D & _)). auto.
    + rewrite (rel_ids _ _ _ (homog_rel_id _ _ _ _) R). exact K5.
  - (* UpdateVars *)
    destruct (update_vars_ok o K) as (l' & E & R & F'). rewrite E. cbn [bind]. split; [|split; [repeat split|exact R]].
    destruct K as [K1 K2 K3 K4 K5 K6 K7]. constructor; cbn; try assumption.
    rewrite (rel_ids (upd_rel (o_env o)) (o_gps o) l'); [exact K5| |exact R]. intros g g' (H & _). exact H.
  - (* Output *)
    pose proof (output_ok o fs fuel pk tstep id K) as H. destruct output as [(o', fs')|e]; cbn [bind]; [|exact H].
    destruct H as (w & es & et & -> & W & L1 & L2 & _). split; [|split; [repeat split|reflexivity]].
    destruct K as [K1 K2 K3 K4 K5 K6 K7]. constructor; cbn; assumption.
  - (* WriteInfo *)
    pose proof (write_info_ok o fs K) as H. destruct write_info_files as [(o', fs')|e]; cbn [bind]; [|exact H].
    destruct H as (-> & _). split; [|split; [repeat split|reflexivity]].
    destruct K as [K1 K2 K3 K4 K5 K6 K7]. constructor; cbn; assumption.
Qed.
End Run.
