(** The syntax trees of src/assembly.cpp against the model: the object, and the stress and
    the strain at a Gauss point of the 3D elements. *)
From Coq Require Import String.
From Verif Require Import Base Scalar Clite CliteRules EllAst AsmAst Sym Grid EllModel AssemblyModel AsmLit.
Local Open Scope string_scope.
Local Open Scope Z_scope.

Section Asm.
Context {T : Type} `{OT : Ops T}.
Notation val := (@val T). Notation obj := (@obj T). Notation obj1 := (@obj1 T).

(** ** The object *)
(** the members of micropp_t the functions read (include/micro.hpp:66-91); [None]: a pointer
    the run at hand does not use *)
Definition this_flds (d ty : Z) (V : env T) (pet pml pvo pvn pu pb pdu pA pes pen : option val)
  : list (string * option val) :=
  [("dim", Some (VI d)); ("npe", Some (VI (if d =? 2 then 4 else 8)));
   ("nvoi", Some (VI (if d =? 2 then 3 else 6)));
   ("nx", Some (VI (v_nx V))); ("ny", Some (VI (v_ny V))); ("nz", Some (VI (v_nz V)));
   ("nn", Some (VI (v_nx V * v_ny V * v_nz V)));
   ("lx", Some (VD (v_lx V))); ("ly", Some (VD (v_ly V))); ("lz", Some (VD (v_lz V)));
   ("dx", Some (VD (v_dx V))); ("dy", Some (VD (v_dy V))); ("dz", Some (VD (v_dz V)));
   ("micro_type", Some (VI ty));
   ("elem_type", pet); ("material_list", pml); ("vars_old", pvo); ("vars_new", pvn); ("u", pu);
   ("b", pb); ("du", pdu); ("A", pA); ("elem_stress", pes); ("elem_strain", pen)].
(** where the object and its arrays are *)
Record place := mkPlace { a_this : Z; a_et : Z; a_ml : Z; a_vo : Z; a_vn : Z; a_u : Z;
  a_b : Z; a_du : Z; a_A : Z; a_es : Z; a_en : Z }.
Definition ptr (a : Z) : option val := Some (VP a 0).
Definition this_in (fs : list (string * option val)) (V : env T) (A : place) : Prop :=
  forall f w, In (f, w) (this_flds (v_dim V) (v_type V) V (ptr (a_et A)) (ptr (a_ml A)) (ptr (a_vo A))
    (ptr (a_vn A)) (ptr (a_u A)) (ptr (a_b A)) (ptr (a_du A)) (ptr (a_A A)) (ptr (a_es A)) (ptr (a_en A))) ->
  fget fs f = Some w.
Definition mats_in (l2 : list (list (string * option val))) (V : env T) : Prop :=
  (2 <= List.length l2)%nat /\ forall i m, nth_error (v_mats V) i = Some m ->
    exists fs, nth_error l2 i = Some fs /\ mat_in fs m.
Definition body_addrs (A : place) : list Z := [a_this A; a_et A; a_ml A; a_vo A; a_vn A; a_u A].
(** the object of model [V], with its internal variables and displacements, in memory *)
Definition body (V : env T) (A : place) (vold vnew u : arr T) (h : Z -> option obj) : Prop :=
  exists fs l2, h (a_this A) = Some (OS fs) /\ this_in fs V A /\
    h (a_et A) = Some (OI (v_etype V)) /\ h (a_ml A) = Some (OV l2) /\ mats_in l2 V /\
    h (a_vo A) = Some (OD vold) /\ h (a_vn A) = Some (OD vnew) /\ h (a_u A) = Some (OD u).

Definition okp (ad : list Z) (p : option val) (a : Z) : Prop :=
  match p with Some v => rvr ad v (VP a 0) | None => True end.
Lemma this_rfs ad fs d ty V A p1 p2 p3 p4 p5 p6 p7 p8 p9 p10 : this_in fs V A ->
  d = v_dim V -> ty = v_type V ->
  okp ad p1 (a_et A) -> okp ad p2 (a_ml A) -> okp ad p3 (a_vo A) -> okp ad p4 (a_vn A) -> okp ad p5 (a_u A) ->
  okp ad p6 (a_b A) -> okp ad p7 (a_du A) -> okp ad p8 (a_A A) -> okp ad p9 (a_es A) -> okp ad p10 (a_en A) ->
  rfs ad (this_flds d ty V p1 p2 p3 p4 p5 p6 p7 p8 p9 p10) fs.
Proof.
  intros H -> -> P1 P2 P3 P4 P5 P6 P7 P8 P9 P10 f w F. unfold this_flds in F. cbn [fget] in F.
  assert (L : forall g w', In (g, w') (this_flds (v_dim V) (v_type V) V (ptr (a_et A)) (ptr (a_ml A)) (ptr (a_vo A))
    (ptr (a_vn A)) (ptr (a_u A)) (ptr (a_b A)) (ptr (a_du A)) (ptr (a_A A)) (ptr (a_es A)) (ptr (a_en A))) ->
    f = g -> fget fs f = Some w') by (intros g w' I ->; auto).
  unfold this_flds in L. clear H.
  Ltac one F L := match type of F with
    (if String.eqb ?f ?g then _ else _) = _ => destruct (String.eqb_spec f g) as [EQ|_];
      [injection F as <-; eexists; split; [apply (L g _); [cbn [In]; repeat (first [left; reflexivity|right])|exact EQ]|]|] end.
  Ltac fin1 := first [eexists; split; [reflexivity|exact eq_refl] |
    match goal with H : okp _ ?p _ |- match ?p with _ => _ end => destruct p; [eexists; split; [reflexivity|exact H]|exact I] end].
  repeat (one F L; [fin1|]). discriminate.
Qed.

Lemma body_frame V A vold vnew u h h' : body V A vold vnew u h ->
  (forall c, In c (body_addrs A) -> h' c = h c) -> body V A vold vnew u h'.
Proof.
  intros (fs & l2 & H) E. exists fs, l2. unfold body_addrs in E. cbn [In] in E.
  rewrite !E by tauto. exact H.
Qed.
(** ** get_stress3D *)
Definition gs_env (ex ey ez gp : Z) : list (string * val) :=
  [("this", VP 0 0); ("ex", VI ex); ("ey", VI ey); ("ez", VI ez); ("gp", VI gp); ("eps", VP 6 0);
   ("non_linear", VP 7 0); ("stress_gp", VP 8 0)].
(** the entries of material_list up to the one of an element of type [z] *)
Definition matl (z : Z) (fs : list (string * option val)) : list (list (string * option val)) :=
  if z =? 0 then [fs] else [[]; fs].
Definition gs_world (ty : Z) V fs l2 z (m : material T) p vold vf (vn : obj1) u ae eps (c7 c8 : obj1)
  : list (option obj1) :=
  [Some (R1 fs (this_flds 3 ty V (ptr 1) (ptr 2) (ptr 3) (ptr 4) None None None None None None));
   Some (K1 (v_etype V) z); Some (V1 l2 (matl z (mat_flds m (Some p)))); Some (F1 vold vf); Some vn;
   Some (Opq u); Some (C1 ae (fc 6 (lget eps))); Some c7; Some c8].

Lemma gs_lin ty V fs l2 z m vold vf vnew u ae eps ex ey ez gp : (ty = 0 \/ ty = 1) ->
  out 9 (exec1 asm_prog noSM 60 (f_body ast_get_stress3D)
    (mk1 (gs_env ex ey ez gp)
         (gs_world ty V fs l2 z m false vold vf (W1 vnew []) u ae eps (I1 (nc 1)) (D1 (nc 6)))) []) =
  Some (gs_world ty V fs l2 z m false vold vf (W1 vnew []) u ae eps (I1 [Some 0])
          (D1 (fc 6 (lget (lin_stress3 (m_lambda m) (m_mu m) eps)))),
        [rd (v_etype V) (glo_elem3D (v_nx V) (v_ny V) ex ey ez) = Ok z]).
Proof. intros [-> | ->]; destruct z; vmr. Qed.

Definition ep_of (vf : Z -> T) (e gp : Z) : list T := map (fun i => vf (intvar_ix e gp i)) (zrange 0 6).
Lemma gs_pl nl ty V fs l2 z m vold vf vnew u ae eps ex ey ez gp : (ty = 0 \/ ty = 1) ->
  let e := glo_elem3D (v_nx V) (v_ny V) ex ey ez in
  let al := vf (intvar_ix e gp 6) in
  let r := pstep_of nl m eps (ep_of vf e gp) al in
  out 9 (exec1 asm_prog noSM 60 (f_body ast_get_stress3D)
    (mk1 (gs_env ex ey ez gp)
         (gs_world ty V fs l2 z m true vold vf (W1 vnew []) u ae eps (I1 (nc 1)) (D1 (nc 6)))) [nl]) =
  Some (gs_world ty V fs l2 z m true vold vf
          (W1 vnew (map (fun i => (intvar_ix e gp i, lget (ps_eps_p r) i)) (zrange 0 6)
                    ++ [(intvar_ix e gp 6, ps_alpha r)])%list) u ae eps
          (I1 [Some (if nl then 1 else 0)]) (D1 (fc 6 (lget (ps_stress r)))),
        [rd (v_etype V) e = Ok z] ++
        map (fun i => rd vold (intvar_ix e gp i) = Ok (vf (intvar_ix e gp i))) (zrange 0 7) ++
        [oltb (ofZ 0) (ftrial m eps (ep_of vf e gp) al) = nl] ++
        map (fun i => 0 <= intvar_ix e gp i < alen vnew) (zrange 0 7))%list.
Proof. intros [-> | ->]; cbv zeta; destruct z; destruct nl; vmr. Qed.

Lemma mats_rv ad l2 V z m p : mats_in l2 V ->
  nth_error (v_mats V) (Z.to_nat (if z =? 0 then 0 else 1)) = Some m -> m_plast m = Some p ->
  forall i fs, nth_error (matl z (mat_flds m (Some p))) i = Some fs ->
  exists fs2, nth_error l2 i = Some fs2 /\ rfs ad fs fs2.
Proof.
  intros (L & H) M P i fs E. destruct (H _ _ M) as (fs2 & N & MI). apply (mat_in_rfs ad) in MI.
  rewrite P in MI. unfold matl in E. destruct (z =? 0).
  - destruct i as [|i]; [|destruct i; discriminate]. injection E as <-. eauto.
  - destruct i as [|[|i]]; [| |destruct i; discriminate]; injection E as <-; [|eauto].
    destruct l2 as [|x l2]; [cbn in L; lia|]. exists x. split; [reflexivity|]. intros f w. discriminate.
Qed.

Lemma mapM_map {X Y} (f : X -> res Y) (g : X -> Y) l ys : mapM f l = Ok ys ->
  (forall x y, In x l -> f x = Ok y -> g x = y) -> ys = map g l /\ forall x, In x l -> f x = Ok (g x).
Proof.
  revert ys. induction l as [|x l IH]; intros ys E G; cbn in E.
  - injection E as <-. split; [reflexivity|intros x []].
  - apply bind_ok in E. destruct E as (y & Ey & E). apply bind_ok in E. destruct E as (ys' & Es & E).
    injection E as <-. destruct (IH _ Es) as (-> & F).
    { intros x' y' I. apply G. now right. }
    assert (g x = y) by (apply G; [now left|exact Ey]). subst y.
    split; [reflexivity|]. intros z [<-|I]; auto.
Qed.
Lemma rdv_ok a i v : rd a i = Ok v -> rdv a i = v. Proof. unfold rdv. now intros ->. Qed.

Lemma alls_in (l : list Prop) : (forall p, In p l -> p) -> alls l.
Proof. induction l as [|p l IH]; cbn; [auto|]. intros H. split; [apply H; now left|apply IH; intros q I; apply H; now right]. Qed.


Theorem get_stress3D_text V A vold vnew u h k be bl bs ae eps fl as_ ex ey ez gp nl s vnew' :
  v_dim V = 3 -> NoDup (body_addrs A ++ [be; bl; bs])%list ->
  Forall (fun a => a < k) (body_addrs A ++ [be; bl; bs])%list -> body V A vold vnew u h ->
  h be = Some (OD ae) -> vec 6 ae eps -> h bl = Some (OI fl) -> alen fl = 1 ->
  h bs = Some (OD as_) -> alen as_ = 6 ->
  get_stress3D V vold vnew ex ey ez gp eps = Ok (nl, s, vnew') ->
  exists st fl' as',
    calls asm_prog "get_stress3D"
      [VP (a_this A) 0; VI ex; VI ey; VI ez; VI gp; VP be 0; VP bl 0; VP bs 0] h k (Ok (st, Nrm)) /\
    body V A vold vnew' u (mem st) /\
    mem st bl = Some (OI fl') /\ alen fl' = 1 /\ aget fl' 0 = Some (if nl then 1 else 0) /\
    mem st bs = Some (OD as') /\ vec 6 as' s /\ frame h (mem st) k [bl; bs; a_vn A] /\ k <= nxt st.
Proof.
  intros D3 ND FK (fs & l2 & B0 & B1 & B2' & B3' & B4 & B5 & B6 & B7) HE VE HL LL HS LS M.
  unfold get_stress3D in M. set (e := glo_elem3D (v_nx V) (v_ny V) ex ey ez) in *.
  apply bind_ok in M. destruct M as ((m & p) & G & M). cbn [fst snd] in M.
  unfold get_material in G. apply bind_ok in G. destruct G as (num & GN & G).
  apply bind_ok in G. destruct G as (m' & GM & G). apply bind_ok in G. destruct G as (p' & GP & G).
  injection G as -> ->.
  destruct ((v_type V =? 0) || (v_type V =? 1)) eqn:TY; [|discriminate].
  apply bind_ok in GN. destruct GN as (z & RZ & GN). injection GN as <-.
  destruct (nth_error (v_mats V) (Z.to_nat (if z =? 0 then 0 else 1))) as [m0|] eqn:NM; [|discriminate].
  injection GM as ->. destruct (m_plast m) as [p0|] eqn:MP; [|discriminate]. injection GP as ->.
  assert (TY' : v_type V = 0 \/ v_type V = 1).
  { apply orb_prop in TY. destruct TY as [TY|TY]; apply Z.eqb_eq in TY; auto. }
  set (ad := (body_addrs A ++ [be; bl; bs])%list) in *.
  assert (W : forall vf vn o, h (a_vn A) = Some o -> ro ad vn o ->
    atall ad ad (gs_world (v_type V) V fs l2 z m p vold vf vn u ae eps (I1 (nc 1)) (D1 (nc 6))) h).
  { intros vf vn o HV RV. unfold gs_world. cbn -[fc nc mat_flds this_flds].
    splits; try exact I; try (eexists; split; [eassumption|]); try reflexivity; try exact RV.
    - split; [reflexivity|]. apply (this_rfs ad fs 3 (v_type V) V A); auto; try exact I;
        eexists; split; reflexivity.
    - split; [reflexivity|]. eapply mats_rv; eauto.
    - split; [reflexivity|]. now apply vec_cells.
    - eexists. split; [reflexivity|]. now apply nc_cells.
    - eexists. split; [reflexivity|]. now apply nc_cells. }
  assert (FIN : forall q os' P,
    out 9 (exec1 asm_prog noSM 60 (f_body ast_get_stress3D) (mk1 (gs_env ex ey ez gp)
      (gs_world (v_type V) V fs l2 z m p vold (rdv vold) (W1 vnew []) u ae eps (I1 (nc 1)) (D1 (nc 6)))) q) =
      Some (os', P) -> alls P ->
    exists l st, calls asm_prog "get_stress3D"
      [VP (a_this A) 0; VI ex; VI ey; VI ez; VI gp; VP be 0; VP bl 0; VP bs 0] h k (Ok (st, Nrm)) /\
      atall (ad ++ l)%list ad os' (mem st) /\ kept ad h (mem st) k (nxt st)).
  { intros q os' P E AL.
    refine (calls_sym asm_prog noSM noSM_ok "get_stress3D" ast_get_stress3D
      [VP 0 0; VI ex; VI ey; VI ez; VI gp; VP 6 0; VP 7 0; VP 8 0] _ _ ad _ h k 60 q os' P
      eq_refl eq_refl _ ND FK _ E AL).
    - apply (W (rdv vold) (W1 vnew []) (OD vnew)); [exact B6|]. exists vnew. split; reflexivity.
    - repeat constructor; eexists; split; reflexivity. }
  assert (END : forall l st vn' (o7 o8 : obj1),
    calls asm_prog "get_stress3D"
      [VP (a_this A) 0; VI ex; VI ey; VI ez; VI gp; VP be 0; VP bl 0; VP bs 0] h k (Ok (st, Nrm)) ->
    atall (ad ++ l)%list ad (gs_world (v_type V) V fs l2 z m p vold (rdv vold) vn' u ae eps
      (I1 [Some (if nl then 1 else 0)]) (D1 (fc 6 (lget s)))) (mem st) ->
    kept ad h (mem st) k (nxt st) ->
    (forall o, ro (ad ++ l)%list vn' o -> o = OD vnew') ->
    exists st fl' as',
    calls asm_prog "get_stress3D"
      [VP (a_this A) 0; VI ex; VI ey; VI ez; VI gp; VP be 0; VP bl 0; VP bs 0] h k (Ok (st, Nrm)) /\
    body V A vold vnew' u (mem st) /\
    mem st bl = Some (OI fl') /\ alen fl' = 1 /\ aget fl' 0 = Some (if nl then 1 else 0) /\
    mem st bs = Some (OD as') /\ vec 6 as' s /\ frame h (mem st) k [bl; bs; a_vn A] /\ k <= nxt st).
  { intros l st vn' _ _ C AT (K1' & K2') VN. unfold gs_world in AT. cbn -[fc nc mat_flds this_flds ro] in AT.
    destruct AT as ((o0 & M0 & R0) & (o1 & M1 & R1') & (o2 & M2 & R2) & (o3 & M3 & R3) & (o4 & M4 & R4) &
      (o5 & M5 & R5) & (o6 & M6 & R6) & (o7 & M7 & R7) & (o8 & M8 & R8) & _).
    cbn [ro] in R0, R1', R2, R3, R5, R6, R7, R8. apply VN in R4. subst o4.
    destruct R0 as (-> & _). destruct R2 as (-> & _). destruct R6 as (-> & _). subst o1 o3 o5.
    destruct R7 as (fl' & -> & R7). destruct R8 as (as' & -> & R8). apply one_cells in R7. apply vec_cells in R8.
    exists st, fl', as'. split; [exact C|]. split.
    { exists fs, l2. auto 10. }
    split; [exact M7|]. split; [apply R7|]. split; [apply R7|]. split; [exact M8|]. split; [exact R8|].
    split; [|exact K1']. intros c LC N. cbn in N.
    destruct (in_dec Z.eq_dec c ad) as [IN|IN]; [|now apply K2'].
    cbn in IN. repeat destruct IN as [IN|IN]; try subst c; try tauto; congruence. }
  destruct p.
  - apply bind_ok in M. destruct M as (ep & EP & M). apply bind_ok in M. destruct M as (al & EA & M).
    apply bind_ok in M. destruct M as (vn & RS & M). injection M as <- <- <-.
    destruct (mapM_map _ (fun i => rdv vold (intvar_ix e gp i)) _ _ EP) as (-> & REP).
    { intros x y _ Q. now apply rdv_ok. }
    change (map (fun i => rdv vold (intvar_ix e gp i)) (zrange 0 6)) with (ep_of (rdv vold) e gp) in *.
    apply rdv_ok in EA as EA'. subst al.
    rewrite plastic_step_of in *.
    set (d := oltb (ofZ 0) (ftrial m eps (ep_of (rdv vold) e gp) (rdv vold (intvar_ix e gp 6)))) in *.
    pose proof (gs_pl d (v_type V) V fs l2 z m vold (rdv vold) vnew u ae eps ex ey ez gp TY') as RUN.
    cbv zeta in RUN. fold e in RUN.
    destruct (FIN _ _ _ RUN) as (l & st & C & AT & Kp).
    { apply alls_in. intros q I. apply in_app_iff in I. destruct I as [[<-|[]]|I]; [exact RZ|].
      apply in_app_iff in I. destruct I as [I|I].
      { apply in_map_iff in I. destruct I as (i & <- & I). apply in_zrange in I.
        destruct (Z.eq_dec i 6) as [->|]; [exact EA|]. apply REP. apply in_zrange. lia. }
      apply in_app_iff in I. destruct I as [[<-|[]]|I]; [reflexivity|].
      apply in_map_iff in I. destruct I as (i & <- & I). apply in_zrange in I.
      destruct (run_stores_inv _ _ _ RS) as (RG & _ & _).
      destruct (Z.eq_dec i 6) as [->|].
      - eapply (RG (intvar_ix e gp 6)). apply in_app_iff. right. left. reflexivity.
      - apply (RG (intvar_ix e gp i) (lget (ps_eps_p (pstep_of d m eps (ep_of (rdv vold) e gp)
          (rdv vold (intvar_ix e gp 6)))) i)). apply in_app_iff. left. apply in_map_iff. exists i. split; [reflexivity|].
        apply in_zrange. lia. }
    apply (END l st _ (Opq u) (Opq u) C AT Kp). intros o (a & -> & RA). congruence.
  - injection M as <- <- <-.
    destruct (FIN _ _ _ (gs_lin (v_type V) V fs l2 z m vold (rdv vold) vnew u ae eps ex ey ez gp TY'))
      as (l & st & C & AT & Kp).
    { cbn [alls]. auto. }
    apply (END l st _ (Opq u) (Opq u) C AT Kp). intros o (a & -> & RA). cbn in RA. congruence.
Qed.
End Asm.
