(** The syntax trees of src/assembly.cpp against the model: get_ctan_plast_pert. *)
From Coq Require Import String.
From Verif Require Import Base Scalar Clite CliteRules EllAst AsmAst Sym SymStep Grid EllModel AssemblyModel
  AsmLit AsmLit2 AsmLit3 AsmLit4 AsmLit5.
Local Open Scope string_scope.
Local Open Scope Z_scope.

Section Asm.
Context {T : Type} `{OT : Ops T}.
Notation val := (@val T). Notation obj := (@obj T). Notation obj1 := (@obj1 T).
Notation fields := (list (string * option val)).

Section Gen.
Variable V : env T.
Variable Wt : fields -> Prop.
Variable W : fields -> fields -> arr Z -> list fields -> Prop.
Variable B : Z -> Z -> Z -> T.
Variable gst : arr T -> Z -> Z -> Z -> Z -> res (list T).
Variable gss : arr T -> arr T -> Z -> Z -> Z -> Z -> list T -> res (bool * list T * arr T).
Variables (u vold : arr T) (ex ey ez gp : Z).
Definition ct_r0 := gst u ex ey ez gp.
Definition ct_e0 := fe (g_eps ct_r0).
Definition ct_s0 (vn : arr T) := gss vold vn ex ey ez gp ct_e0.
Definition ct_ep (i : Z) : list T :=
  ltab 6 (fun j => if (j =? i)%Z then oadd (lget ct_e0 j) (dec 1 8) else lget ct_e0 j).
Definition ct_r (vn : arr T) (i : Z) := gss vold vn ex ey ez gp (ct_ep i).
Definition ct_step (sig0 : list T) (st : list (list T) * arr T) (i : Z) : list (list T) * arr T :=
  let r := ct_r (snd st) i in
  ((fst st ++ [ltab 6 (fun j => odiv (osub (lget (g_sig r) j) (lget sig0 j)) (dec 1 8))])%list, g_vn (snd st) r).
Definition okr (vn : arr T) (r : res (bool * list T * arr T)) : Prop := r = Ok (g_nl r, g_sig r, g_vn vn r).
Fixpoint ct_conds (C : Prop) (sig0 : list T) (l : list Z) (st : list (list T) * arr T) : list Prop :=
  match l with
  | [] => []
  | i :: l => C :: okr (snd st) (ct_r (snd st) i) :: ct_conds C sig0 l (ct_step sig0 st i)
  end.
Definition ct_vn0 (vn : arr T) := g_vn vn (ct_s0 vn).
Definition ct_end (vn : arr T) := fold_left (ct_step (g_sig (ct_s0 vn))) (zrange 0 6) ([], ct_vn0 vn).
Definition ct_cell (cs : list (list T)) (m : Z) : T := lget (nth (Z.to_nat (m mod 6)) cs []) (m / 6).
Lemma ct_run fs l2 vnew :
  let C := W fs (this_flds 3 (v_type V) V (ptr 1) (ptr 2) (ptr 3) (ptr 4) (ptr 5) None None None None None)
                     (v_etype V) l2 in
  out 7 (exec1 asm_prog (SM2 Wt W B gst gss) 100 (f_body ast_get_ctan_plast_pert)
    (mk1 [("this", VP 0 0); ("ex", VI ex); ("ey", VI ey); ("ez", VI ez); ("gp", VI gp); ("ctan", VP 6 0)]
      (pre6 V fs l2 vold vnew u ++ [Some (D1 (nc 36))])%list) []) =
  Some (pre6 V fs l2 vold (snd (ct_end vnew)) u ++ [Some (D1 (fc 36 (ct_cell (fst (ct_end vnew)))))],
        [0 <= gp < 8; C; ct_r0 = Ok (g_eps ct_r0); C; okr vnew (ct_s0 vnew)] ++
        ct_conds C (g_sig (ct_s0 vnew)) (zrange 0 6) ([], ct_vn0 vnew))%list.
Proof. cbv zeta. vmr. Qed.
End Gen.

(** from a run on the six objects and others at [ads] to the body and the others *)
Lemma body_out (V : env T) A fs l2 vold vnew vnew' u h k ads exo' (Q : @state T -> Prop) :
  h (a_this A) = Some (OS fs) -> this_in fs V A -> h (a_et A) = Some (OI (v_etype V)) ->
  h (a_ml A) = Some (OV l2) -> mats_in l2 V -> h (a_vo A) = Some (OD vold) -> h (a_vn A) = Some (OD vnew) ->
  h (a_u A) = Some (OD u) ->
  (exists l st, Q st /\ atall ((body_addrs A ++ ads) ++ l)%list (body_addrs A ++ ads)%list
      (pre6 V fs l2 vold vnew' u ++ exo')%list (mem st) /\
    kept (body_addrs A ++ ads)%list h (mem st) k (nxt st)) ->
  exists l st, Q st /\ body V A vold vnew' u (mem st) /\
    atall ((body_addrs A ++ ads) ++ l)%list ads exo' (mem st) /\
    frame h (mem st) k (a_vn A :: ads) /\ k <= nxt st.
Proof.
  intros B0 B1 B2' B3' B4 B5 B6 B7 (l & st & C & AT & (K1' & K2')).
  apply atall_split in AT; [|reflexivity]. destruct AT as (AT1 & AT2).
  exists l, st. split; [exact C|]. split; [exact (pre6_get _ A _ _ _ _ _ _ _ B4 B1 AT1)|].
  split; [exact AT2|]. split; [|exact K1'].
  intros c LC N. destruct (in_dec Z.eq_dec c (body_addrs A ++ ads)%list) as [IN|IN]; [|now apply K2'].
  apply in_app_iff in IN. destruct IN as [IN|IN]; [|elim N; now right].
  clear -IN N AT1 B0 B2' B3' B5 B7. unfold pre6, body_addrs in AT1. cbn -[this_flds ro] in AT1.
  destruct AT1 as ((o0 & Q0 & R0) & (o1 & Q1 & R1') & (o2 & Q2 & R2) & (o3 & Q3 & R3) & (o4 & Q4 & R4) &
      (o5 & Q5 & R5) & _). cbn [ro] in *. destruct R0 as (-> & _). destruct R2 as (-> & _). subst.
  cbn in IN, N. repeat destruct IN as [IN|IN]; try subst c; try tauto; congruence.
Qed.

Lemma Wok_this (V : env T) A fs l2 : this_in fs V A -> mats_in l2 V ->
  Wok V fs (this_flds 3 (v_type V) V (ptr 1) (ptr 2) (ptr 3) (ptr 4) (ptr 5) None None None None None) (v_etype V) l2.
Proof. intros TI MI. split; [exists A; exact TI|]. splits; assumption || reflexivity. Qed.

Lemma ct_foldM V u vold ex ey ez gp e0 sig0 (C : Prop) : C -> get_strain3D V u ex ey ez gp = Ok e0 ->
  forall l st st',
  foldM (fun st i =>
      let ep := ltab 6 (fun j => if (j =? i)%Z then oadd (lget e0 j) deps_pert else lget e0 j) in
      ' s <- get_stress3D V vold (snd st) ex ey ez gp ep ;;
      Ok (fst st ++ [ltab 6 (fun j => odiv (osub (lget (snd (fst s)) j) (lget sig0 j)) deps_pert)], snd s)%list) l st = Ok st' ->
  st' = fold_left (ct_step (get_strain3D V) (get_stress3D V) u vold ex ey ez gp sig0) l st /\
  alls (ct_conds (get_strain3D V) (get_stress3D V) u vold ex ey ez gp C sig0 l st).
Proof.
  intros HC E0.
  assert (EE : ct_e0 (get_strain3D V) u ex ey ez gp = e0).
  { unfold ct_e0, ct_r0. rewrite E0. cbn [g_eps]. eapply fe_strain; eauto. }
  induction l as [|i l IH]; intros st st' E; cbn [foldM] in E.
  - injection E as <-. cbn. auto.
  - cbv zeta in E. apply bind_ok in E. destruct E as (st1 & E & E2).
    apply bind_ok in E. destruct E as (((nl & s) & vn) & E3 & E). cbn [fst snd] in E. injection E as E.
    assert (RR : ct_r (get_strain3D V) (get_stress3D V) u vold ex ey ez gp (snd st) i = Ok (nl, s, vn)).
    { unfold ct_r, ct_ep. rewrite EE. exact E3. }
    assert (ST : st1 = ct_step (get_strain3D V) (get_stress3D V) u vold ex ey ez gp sig0 st i).
    { unfold ct_step. cbv zeta. rewrite RR. cbn [g_sig g_vn]. now rewrite <- E. }
    rewrite ST in E2. destruct (IH _ _ E2) as (-> & AL). split; [reflexivity|].
    cbn [ct_conds alls]. split; [exact HC|]. split; [|exact AL]. unfold okr. rewrite RR. reflexivity.
Qed.

Theorem get_ctan_text V A vold vnew u h k bc ac ex ey ez gp c vnew' :
  v_dim V = 3 -> 0 <= gp < 8 -> NoDup (body_addrs A ++ [bc])%list ->
  Forall (fun a => a < k) (body_addrs A ++ [bc])%list -> body V A vold vnew u h ->
  h bc = Some (OD ac) -> alen ac = 36 ->
  ctan_plast_pert V u vold vnew ex ey ez gp = Ok (c, vnew') ->
  exists st ac',
    calls asm_prog "get_ctan_plast_pert"
      [VP (a_this A) 0; VI ex; VI ey; VI ez; VI gp; VP bc 0] h k (Ok (st, Nrm)) /\
    body V A vold vnew' u (mem st) /\
    mem st bc = Some (OD ac') /\ cells ac' (fc 36 (fun m => c (m / 6) (m mod 6))) /\
    frame h (mem st) k [a_vn A; bc] /\ k <= nxt st.
Proof.
  intros D3 GP ND FK (fs & l2 & B0 & B1 & B2' & B3' & B4 & B5 & B6 & B7) HC LC M.
  unfold ctan_plast_pert in M. apply bind_ok in M. destruct M as (e0 & E0 & M).
  apply bind_ok in M. destruct M as (((n0 & sig0) & v0) & S0 & M). cbv zeta in M. cbn [fst snd] in M.
  apply bind_ok in M. destruct M as (cs & FM & M). injection M as <- <-.
  assert (WO := Wok_this V A fs l2 B1 B4).
  destruct (ct_foldM V u vold ex ey ez gp e0 sig0 _ WO E0 _ _ _ FM) as (EQ & AL).
  assert (R0 : ct_r0 (get_strain3D V) u ex ey ez gp = Ok e0) by exact E0.
  assert (EE : ct_e0 (get_strain3D V) u ex ey ez gp = e0).
  { unfold ct_e0. rewrite R0. cbn [g_eps]. eapply fe_strain; eauto. }
  assert (S0' : ct_s0 (get_strain3D V) (get_stress3D V) u vold ex ey ez gp vnew = Ok (n0, sig0, v0)).
  { unfold ct_s0. rewrite EE. exact S0. }
  assert (EN : cs = ct_end (get_strain3D V) (get_stress3D V) u vold ex ey ez gp vnew).
  { unfold ct_end, ct_vn0. rewrite S0'. cbn [g_sig g_vn]. exact EQ. }
  set (ad := (body_addrs A ++ [bc])%list) in *.
  destruct (body_out V A fs l2 vold vnew (snd cs) u h k [bc] [Some (D1 (fc 36 (ct_cell (fst cs))))]
    (fun st => calls asm_prog "get_ctan_plast_pert"
      [VP (a_this A) 0; VI ex; VI ey; VI ez; VI gp; VP bc 0] h k (Ok (st, Nrm)))) as (l & st & C & BD & AT & FR & KN); auto.
  - pose proof (ct_run V (Wt V) (Wok V) (B3 V) (get_strain3D V) (get_stress3D V) u vold ex ey ez gp fs l2 vnew) as RUN.
    cbv zeta in RUN. rewrite <- EN in RUN.
    refine (calls_out asm_prog _ (SM2_ok V D3) "get_ctan_plast_pert" ast_get_ctan_plast_pert
    [VP 0 0; VI ex; VI ey; VI ez; VI gp; VP 6 0] _
    _ ad (pre6 V fs l2 vold vnew u ++ [Some (D1 (nc 36))])%list h k 100 [] _ _ RUN
    eq_refl eq_refl _ ND FK _ _).
    + apply alls_in. intros p I. apply in_app_iff in I. destruct I as [I|I].
      * destruct I as [<-|[<-|[<-|[<-|[<-|[]]]]]]; auto.
        -- rewrite R0. reflexivity.
        -- unfold okr. rewrite S0'. reflexivity.
      * rewrite S0' in I. unfold ct_vn0 in I. rewrite S0' in I. cbn [g_sig g_vn] in I. clear -AL I. revert AL I.
        generalize (ct_conds (get_strain3D V) (get_stress3D V) u vold ex ey ez gp
          (Wok V fs (this_flds 3 (v_type V) V (ptr 1) (ptr 2) (ptr 3) (ptr 4) (ptr 5) None None None None None)
          (v_etype V) l2) sig0 (zrange 0 6) ([], v0)). intros L.
        induction L as [|c L IH]; [contradiction|]. intros (H & H') [<-|I]; auto.
    + repeat constructor; eexists; split; reflexivity.
    + change ad with (body_addrs A ++ [bc])%list at 2. refine (atall_app _ _ _ _ _ _ _ _).
      { eapply pre6_at; eauto. reflexivity. }
      cbn -[nc]. split; [|exact I]. exists (OD ac). split; [exact HC|]. exists ac. split; [reflexivity|]. now apply nc_cells.
  - cbn -[fc] in AT. destruct AT as ((o1 & M1 & (ac' & -> & R1')) & _).
    exists st, ac'. split; [exact C|]. split; [exact BD|]. split; [exact M1|]. split; [exact R1'|]. auto.
Qed.

(** ** summary of get_ctan_plast_pert *)
Definition g_c (r : res ((Z -> Z -> T) * arr T)) : Z -> Z -> T := match r with Ok (c, _) => c | Err _ => fun _ _ => ofZ 0 end.
Definition g_cv (vn : arr T) (r : res ((Z -> Z -> T) * arr T)) : arr T := match r with Ok (_, v) => v | Err _ => vn end.
Definition sm_ctan (W : fields -> fields -> arr Z -> list fields -> Prop)
  (gct : arr T -> arr T -> arr T -> Z -> Z -> Z -> Z -> res ((Z -> Z -> T) * arr T)) : @summary T := fun m vs =>
  match pref m, vs with
  | Some (fs, f1, et, l2, vo, vn, u), [VP 0 0; VI ex; VI ey; VI ez; VI gp; VP b 0] =>
      match at1 m b with
      | Some (Some (D1 l)) =>
          if Nat.eqb (List.length l) 36 && (6 <=? b) then
            bind1 (when1 (0 <= gp < 8) tt) (fun _ =>
            bind1 (when1 (W fs f1 et l2) tt) (fun _ =>
            let r := gct u vo vn ex ey ez gp in
            bind1 (when1 (r = Ok (g_c r, g_cv vn r)) tt) (fun _ =>
              ret1 (repl1 (Z.to_nat b) (Some (D1 (fc 36 (fun m => g_c r (m / 6) (m mod 6)))))
                   (repl1 4%nat (Some (Opq (g_cv vn r))) m)))))
          else none1
      | _ => none1
      end
  | _, _ => none1
  end.

Lemma sm_ctan_ok V : v_dim V = 3 -> sum_ok asm_prog "get_ctan_plast_pert" (sm_ctan (Wok V) (ctan_plast_pert V)).
Proof.
  intros D3 m vs q m' q2 p ad h k vs2 E AL SIM R. unfold sm_ctan in E.
  destruct (pref m) as [[[[[[[fs f1] et] l2] vo] vn] u]|] eqn:PF; [|discriminate].
  destruct vs as [|[| |b0 o0|] vs]; try discriminate E.
  destruct b0; try discriminate E; destruct o0; try discriminate E.
  destruct vs as [|[ex| | |] vs]; try discriminate E.
  destruct vs as [|[ey| | |] vs]; try discriminate E.
  destruct vs as [|[ez| | |] vs]; try discriminate E.
  destruct vs as [|[gp| | |] vs]; try discriminate E.
  destruct vs as [|[| |b ob|] vs]; try discriminate E.
  destruct ob; try discriminate E. destruct vs; try discriminate E.
  destruct (at1 m b) as [[[l| | | | | | | | |]|]|] eqn:MB; try discriminate.
  destruct (Nat.eqb_spec (List.length l) 36) as [LL|]; [|discriminate].
  destruct (Z.leb_spec 6 b) as [NB|]; [|discriminate]. cbn [andb] in E. cbv zeta in E.
  set (r := ctan_plast_pert V u vo vn ex ey ez gp) in *.
  unfold when1, bind1, ret1 in E. injection E as <- <- <-. destruct AL as (GP & WK & OK & _).
  destruct (pref_body V _ _ _ _ _ _ _ _ _ _ _ PF SIM WK) as (A & BD & HT & TI & F6).
  destruct (msim_at _ _ _ _ _ _ SIM MB) as (ab & o3 & Ab & Lb & Ib & Hb & (aa & -> & CB)).
  assert (ND : NoDup ad) by apply SIM. assert (LK : forall c, In c ad -> c < k) by apply SIM.
  assert (N7 : NoDup (body_addrs A ++ [ab])%list).
  { apply (at1_NoDup ad ([0; 1; 2; 3; 4; 5] ++ [b])%list); [exact ND| |].
    - apply NoDup_app_snoc; [repeat constructor; cbn; lia|cbn; lia].
    - apply Forall2_app; [exact F6|]. constructor; [exact Ab|constructor]. }
  assert (K7 : Forall (fun a => a < k) (body_addrs A ++ [ab])%list).
  { apply Forall_app. split; [|repeat constructor; assumption]. clear -F6 LK.
    apply Forall_forall. intros a I.
    assert (J : exists i, at1 ad i = Some a).
    { induction F6 as [|i b x y H F IH]; [contradiction|]. destruct I as [<-|I]; eauto. }
    destruct J as (i & J). apply LK. eapply at1_in; eauto. }
  assert (X0 : at1 ad 0 = Some (a_this A)) by (inversion F6; assumption).
  assert (X4 : at1 ad 4 = Some (a_vn A)).
  { clear -F6. unfold body_addrs in F6.
    inversion_clear F6 as [|? ? ? ? _ F1']. inversion_clear F1' as [|? ? ? ? _ F2].
    inversion_clear F2 as [|? ? ? ? _ F3]. inversion_clear F3 as [|? ? ? ? _ F4]. now inversion_clear F4. }
  repeat match goal with H : Forall2 (rvr ad) (_ :: _) _ |- _ => inversion H; clear H; subst end.
  match goal with H : Forall2 (rvr ad) [] _ |- _ => inversion H; clear H; subst end.
  repeat match goal with H : rvr ad (VI _) _ |- _ => cbn in H; subst end.
  repeat match goal with H : rvr ad (VP _ _) _ |- _ => let x := fresh "x" in let X := fresh "X" in destruct H as (x & X & ->) end.
  match goal with |- context [[VP ?x 0; VI _; VI _; VI _; VI _; VP ?y 0]] =>
    assert (x = a_this A) by congruence; assert (y = ab) by congruence; subst x y end.
  destruct (get_ctan_text V A vo vn u h k ab aa ex ey ez gp (g_c r) (g_cv vn r) D3 GP N7 K7 BD Hb)
    as (st & ab' & C & BD' & M & CE & FR & KN); auto.
  { destruct CB as (LB & _). rewrite LB, LL. reflexivity. }
  destruct BD' as (fs' & l2' & _ & _ & _ & _ & _ & _ & Q6 & _).
  exists st, Nrm. split; [exact C|]. split; [discriminate|]. split.
  - apply (msim_upds ad (mem st) (nxt st)
      [mkUpd 4 (a_vn A) (Opq (g_cv vn r)) (OD (g_cv vn r));
       mkUpd b ab (D1 (fc 36 (fun m => g_c r (m / 6) (m mod 6)))) (OD ab')] _ h k); auto.
    repeat constructor; try assumption; cbn -[fc].
    eexists. split; [reflexivity|exact CE].
  - split; [exact KN|]. intros c LC N. apply FR; [exact LC|]. cbn. intros [<-|[<-|[]]]; auto.
    apply N. eapply at1_in; eauto.
Qed.
End Asm.
