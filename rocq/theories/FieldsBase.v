(** calc_fields over any arithmetic: the cell averages of strain and stress. *)
From Coq Require Import ZifyBool.
From Verif Require Import Base Scalar EllSpec EllInit EllModel EllAsm EllFinal Grid AssemblyModel AsmPure AsmRun MicroModel NewtonBase.

Section F.
Context {T : Type} `{OT : Ops T}.
Implicit Types (V : env T).

Lemma field_range nv e (aux : list T) vol j x : In (j, x) (field_stores nv e aux vol) ->
  exists v, 0 <= v < nv /\ j = e * nv + v /\ x = odiv (lget aux v) vol.
Proof. unfold field_stores. intros H. apply in_map_iff in H. destruct H as (v & [= <- <-] & Hv). apply in_zrange in Hv. eauto. Qed.
Lemma field_get nv e (aux : list T) vol (a : arr T) : 0 <= nv -> 0 <= e -> e * nv + nv <= alen a ->
  exists a', run_stores (field_stores nv e aux vol) a = Ok a' /\ alen a' = alen a /\
    forall e' v, 0 <= v < nv -> aget a' (e' * nv + v) = if e' =? e then Some (odiv (lget aux v) vol) else aget a (e' * nv + v).
Proof.
  intros Hn He Hl. destruct (run_stores_ok (field_stores nv e aux vol) a) as (a' & E & L & G).
  { intros j x H. apply field_range in H. destruct H as (v & Hv & -> & _). nia. }
  exists a'. split; [exact E|]. split; [exact L|]. intros e' v Hv. rewrite G. destruct (Z.eqb_spec e' e) as [->|Hne].
  - rewrite (last_write_unique _ _ (odiv (lget aux v) vol)); [reflexivity| |].
    + apply in_map_iff. exists v. split; [reflexivity|now apply in_zrange].
    + intros x H. apply field_range in H. destruct H as (v' & Hv' & Ev & ->). replace v' with v by lia. reflexivity.
  - rewrite last_write_none; [reflexivity|]. intros x H. apply field_range in H. destruct H as (v' & Hv' & Ev & _). nia.
Qed.

Lemma cell_st_ok V uf of e (v : arr T) : v_dim V = 3 -> In e (els3 V) -> alen v = ncells V * 56 ->
  exists v', run_stores (cell_st V uf of e) v = Ok v' /\ alen v' = ncells V * 56.
Proof.
  intros D He L. destruct (run_stores_ok (cell_st V uf of e) v) as (v' & E & L' & _); [|exists v'; split; [exact E|congruence]].
  intros j x H. unfold cell_st in H. apply in_flat_map in H. destruct H as (g & Hg & H). apply in_zrange in Hg. rewrite L.
  eapply (st3_range V uf); eassumption.
Qed.

Theorem fields3_ok V uf of u vold vnew es et : sane V -> v_dim V = 3 -> rep u (v_nx V * v_ny V * v_nz V * 3) uf ->
  old_ok V of vold -> alen vnew = ncells V * 56 -> alen es = ncells V * 6 -> alen et = ncells V * 6 ->
  let vol := omul (omul (v_dx V) (v_dy V)) (v_dz V) in
  exists es' et' vnew', calc_fields V u vold vnew es et = Ok (es', et', vnew') /\ alen es' = ncells V * 6 /\ alen et' = ncells V * 6 /\
    run_stores (visit V uf of) vnew = Ok vnew' /\
    forall e v, In e (els3 V) -> 0 <= v < 6 ->
      aget es' (ix3 V e * 6 + v) = Some (odiv (lget (eaux3 V uf e) v) vol) /\
      aget et' (ix3 V e * 6 + v) = Some (odiv (lget (aux3 V uf of e) v) vol).
Proof.
  intros S D U O L Ls Lt vol. unfold calc_fields. rewrite D. cbn [Z.eqb Pos.eqb].
  pose (P := fun (pre : list (Z * Z * Z)) (st : arr T * arr T * arr T) => let '(es', et', v') := st in
    alen es' = ncells V * 6 /\ alen et' = ncells V * 6 /\ alen v' = ncells V * 56 /\ run_stores (flat_map (cell_st V uf of) pre) vnew = Ok v' /\
    forall e v, In e pre -> 0 <= v < 6 ->
      aget es' (ix3 V e * 6 + v) = Some (odiv (lget (eaux3 V uf e) v) vol) /\
      aget et' (ix3 V e * 6 + v) = Some (odiv (lget (aux3 V uf of e) v) vol)).
  match goal with |- context [foldM ?f (els3 V) (es, et, vnew)] => destruct (foldM_inv f P (els3 V) (es, et, vnew)) as (((es', et'), vn) & E & H) end.
  - unfold P. repeat (split; [first [assumption|reflexivity]|]). intros e v [].
  - intros pre x post ((es1, et1), v1) El (L1 & L2 & L3 & Rv & G).
    assert (Hin : forall e, In e pre -> In e (els3 V)) by (intros e He; rewrite El; apply in_or_app; now left).
    assert (Hx : In x (els3 V)) by (rewrite El; apply in_or_app; right; now left).
    pose proof (ix3_range V x D Hx) as Rx.
    destruct x as ((ex, ey), ez).
    rewrite (fold_stores _ (fun a g => (add_ave 6 (strain3 V uf (ex, ey, ez) g) (wg3 V) (fst a),
                                        add_ave 6 (sig3 V of (ex, ey, ez) g (strain3 V uf (ex, ey, ez) g)) (wg3 V) (snd a)))
       (fun g => st3 V of (ex, ey, ez) g (strain3 V uf (ex, ey, ez) g))).
    2:{ intros (a1, a2) v' g Hg. apply in_zrange in Hg. rewrite (strain3_ok V uf) by assumption. cbn [bind fst snd].
        rewrite (stress3_ok V uf of) by assumption. rewrite bind_assoc. reflexivity. }
    destruct (cell_st_ok V uf of (ex, ey, ez) v1 D Hx L3) as (v2 & Ev & Lv). cbn [snd].
    unfold cell_st in Ev. rewrite Ev. cbn [bind].
    assert (Ef : fold_left (fun a g => (add_ave 6 (strain3 V uf (ex, ey, ez) g) (wg3 V) (fst a),
                   add_ave 6 (sig3 V of (ex, ey, ez) g (strain3 V uf (ex, ey, ez) g)) (wg3 V) (snd a))) (zrange 0 8) (zeros 6, zeros 6)
                 = (eaux3 V uf (ex, ey, ez), aux3 V uf of (ex, ey, ez))).
    { unfold eaux3, aux3. generalize (zeros 6) at 1 3. intros z1. generalize (zeros 6). intros z2. revert z1 z2.
      generalize (zrange 0 8). intros l. induction l as [|g l IH]; intros z1 z2; [reflexivity|]. cbn [fold_left fst snd]. apply IH. }
    rewrite Ef. cbn [fst snd]. fold vol. change (glo_elem3D (v_nx V) (v_ny V) ex ey ez) with (ix3 V (ex, ey, ez)).
    destruct (field_get 6 (ix3 V (ex, ey, ez)) (eaux3 V uf (ex, ey, ez)) vol es1) as (es2 & Es & Ls2 & Gs); [lia|lia|lia|].
    destruct (field_get 6 (ix3 V (ex, ey, ez)) (aux3 V uf of (ex, ey, ez)) vol et1) as (et2 & Et & Lt2 & Gt); [lia|lia|lia|].
    rewrite Es. cbn [bind]. rewrite Et. cbn [bind]. eexists. split; [reflexivity|]. unfold P.
    split; [congruence|]. split; [congruence|]. split; [exact Lv|]. split.
    + rewrite flat_map_app, run_stores_app, Rv. cbn [bind flat_map]. rewrite app_nil_r. exact Ev.
    + intros e v He Hv. rewrite (Gs _ v Hv), (Gt _ v Hv). apply in_app_or in He. destruct He as [He|[<-|[]]].
      * destruct (Z.eqb_spec (ix3 V e) (ix3 V (ex, ey, ez))) as [Q|Q]; [|now apply G].
        apply ix3_inj in Q; [|now apply Hin|exact Hx]. now subst.
      * rewrite Z.eqb_refl. auto.
  - rewrite E. destruct H as (H1 & H2 & _ & H4 & H5). exists es', et', vn. split; [reflexivity|]. auto.
Qed.

Lemma ix2_inj V e e' : In e (els2 V) -> In e' (els2 V) -> ix2 V e = ix2 V e' -> e = e'.
Proof.
  destruct e as [ex ey], e' as [ex' ey']. intros H H' E. apply in_els2 in H, H'. unfold ix2, glo_elem3D in E.
  assert (ey = ey') by nia. subst. f_equal. lia.
Qed.
Theorem fields2_ok V uf u vold vnew es et : sane V -> v_dim V = 2 -> rep u (v_nx V * v_ny V * 2) uf ->
  alen es = ncells V * 3 -> alen et = ncells V * 3 ->
  let vol := omul (v_dx V) (v_dy V) in
  exists es' et', calc_fields V u vold vnew es et = Ok (es', et', vnew) /\ alen es' = ncells V * 3 /\ alen et' = ncells V * 3 /\
    forall e v, In e (els2 V) -> 0 <= v < 3 ->
      aget es' (ix2 V e * 3 + v) = Some (odiv (lget (eaux2 V uf e) v) vol) /\
      aget et' (ix2 V e * 3 + v) = Some (odiv (lget (aux2 V uf e) v) vol).
Proof.
  intros S D U Ls Lt vol. unfold calc_fields. rewrite D. cbn [Z.eqb Pos.eqb].
  pose (P := fun (pre : list (Z * Z)) (st : arr T * arr T * arr T) => let '(es', et', v') := st in
    alen es' = ncells V * 3 /\ alen et' = ncells V * 3 /\ v' = vnew /\
    forall e v, In e pre -> 0 <= v < 3 ->
      aget es' (ix2 V e * 3 + v) = Some (odiv (lget (eaux2 V uf e) v) vol) /\
      aget et' (ix2 V e * 3 + v) = Some (odiv (lget (aux2 V uf e) v) vol)).
  match goal with |- context [foldM ?f (els2 V) (es, et, vnew)] => destruct (foldM_inv f P (els2 V) (es, et, vnew)) as (((es', et'), vn) & E & H) end.
  - unfold P. repeat (split; [first [assumption|reflexivity]|]). intros e v [].
  - intros pre x post ((es1, et1), v1) El (L1 & L2 & Rv & G).
    assert (Hin : forall e, In e pre -> In e (els2 V)) by (intros e He; rewrite El; apply in_or_app; now left).
    assert (Hx : In x (els2 V)) by (rewrite El; apply in_or_app; right; now left).
    pose proof (ix2_range V x D Hx) as Rx.
    destruct x as (ex, ey).
    rewrite (foldM_pure _ (fun a g => (add_ave 3 (strain2 V uf (ex, ey) g) (wg2 V) (fst a),
                                        add_ave 3 (sig2 V (ex, ey) (strain2 V uf (ex, ey) g)) (wg2 V) (snd a)))).
    2:{ intros (a1, a2) g _. rewrite (strain2_ok V uf) by assumption. cbn [bind fst snd].
        rewrite stress2_ok by assumption. reflexivity. }
    cbn [bind].
    assert (Ef : fold_left (fun a g => (add_ave 3 (strain2 V uf (ex, ey) g) (wg2 V) (fst a),
                   add_ave 3 (sig2 V (ex, ey) (strain2 V uf (ex, ey) g)) (wg2 V) (snd a))) (zrange 0 4) (zeros 3, zeros 3)
                 = (eaux2 V uf (ex, ey), aux2 V uf (ex, ey))).
    { unfold eaux2, aux2. generalize (zeros 3) at 1 3. intros z1. generalize (zeros 3). intros z2. revert z1 z2.
      generalize (zrange 0 4). intros l. induction l as [|g l IH]; intros z1 z2; [reflexivity|]. cbn [fold_left fst snd]. apply IH. }
    rewrite Ef. cbn [fst snd]. fold vol. change (glo_elem3D (v_nx V) (v_ny V) ex ey 0) with (ix2 V (ex, ey)).
    destruct (field_get 3 (ix2 V (ex, ey)) (eaux2 V uf (ex, ey)) vol es1) as (es2 & Es & Ls2 & Gs); [lia|lia|lia|].
    destruct (field_get 3 (ix2 V (ex, ey)) (aux2 V uf (ex, ey)) vol et1) as (et2 & Et & Lt2 & Gt); [lia|lia|lia|].
    rewrite Es. cbn [bind]. rewrite Et. cbn [bind]. eexists. split; [reflexivity|]. unfold P.
    split; [congruence|]. split; [congruence|]. split; [exact Rv|].
    intros e v He Hv. rewrite (Gs _ v Hv), (Gt _ v Hv). apply in_app_or in He. destruct He as [He|[<-|[]]].
    + destruct (Z.eqb_spec (ix2 V e) (ix2 V (ex, ey))) as [Q|Q]; [|now apply G].
      apply ix2_inj in Q; [|now apply Hin|exact Hx]. now subst.
    + rewrite Z.eqb_refl. auto.
  - rewrite E. destruct H as (H1 & H2 & -> & H5). exists es', et'. auto.
Qed.
End F.
