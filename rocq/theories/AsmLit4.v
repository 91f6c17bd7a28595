(** The syntax trees of src/assembly.cpp against the model: summaries of get_strain3D and
    get_stress3D. *)
From Coq Require Import String.
From Verif Require Import Base Scalar Clite CliteRules EllAst AsmAst Sym Grid EllModel AssemblyModel AsmLit AsmLit2 AsmLit3.
Local Open Scope string_scope.
Local Open Scope Z_scope.

Section Asm.
Context {T : Type} `{OT : Ops T}.
Notation val := (@val T). Notation obj := (@obj T). Notation obj1 := (@obj1 T).
Notation fields := (list (string * option val)).

(** the first six objects of a run: the micropp_t, the element types, the materials, the old
    and the new internal variables and the displacements *)
Definition pref (m : list (option obj1))
  : option (fields * fields * arr Z * list fields * arr T * arr T * arr T) :=
  match m with
  | Some (R1 fs f1) :: Some (K1 et _) :: Some (V1 l2 _) :: Some (Opq vo) :: Some (Opq vn) :: Some (Opq u) :: _ =>
      Some (fs, f1, et, l2, vo, vn, u)
  | _ => None
  end.
Definition Wok (V : env T) (fs f1 : fields) (et : arr Z) (l2 : list fields) : Prop :=
  (exists A, this_in fs V A) /\ et = v_etype V /\ mats_in l2 V /\
  fget f1 "elem_type" = Some (ptr 1) /\ fget f1 "material_list" = Some (ptr 2) /\
  fget f1 "vars_old" = Some (ptr 3) /\ fget f1 "vars_new" = Some (ptr 4) /\ fget f1 "u" = Some (ptr 5).

Lemma pref_body V ad m h k fs f1 et l2 vo vn u : pref m = Some (fs, f1, et, l2, vo, vn, u) ->
  msim ad m h k -> Wok V fs f1 et l2 ->
  exists A, body V A vo vn u h /\ h (a_this A) = Some (OS fs) /\ this_in fs V A /\
    Forall2 (fun i a => at1 ad i = Some a) [0; 1; 2; 3; 4; 5] (body_addrs A).
Proof.
  intros PF SIM ((A & TI) & ET & MI & F1' & F2 & F3 & F4 & F5).
  destruct m as [|[[| |?|fs_ f1_| | | | | |]|] m]; try discriminate PF.
  destruct m as [|[[| | | | | | |et' z| |]|] m]; try discriminate PF.
  destruct m as [|[[| | | |l2' ml| | | | |]|] m]; try discriminate PF.
  destruct m as [|[[| | | | | | | | |vo']|] m]; try discriminate PF.
  destruct m as [|[[| | | | | | | | |vn']|] m]; try discriminate PF.
  destruct m as [|[[| | | | | | | | |u']|] m]; try discriminate PF.
  cbn in PF. injection PF as -> -> -> -> -> -> ->. subst et.
  destruct (msim_at _ _ _ _ 0 _ SIM eq_refl) as (a0 & o0 & A0 & _ & _ & H0 & -> & RF).
  destruct (msim_at _ _ _ _ 1 _ SIM eq_refl) as (a1 & o1 & A1 & _ & _ & H1 & ->).
  destruct (msim_at _ _ _ _ 2 _ SIM eq_refl) as (a2 & o2 & A2 & _ & _ & H2 & -> & _).
  destruct (msim_at _ _ _ _ 3 _ SIM eq_refl) as (a3 & o3 & A3 & _ & _ & H3 & ->).
  destruct (msim_at _ _ _ _ 4 _ SIM eq_refl) as (a4 & o4 & A4 & _ & _ & H4 & ->).
  destruct (msim_at _ _ _ _ 5 _ SIM eq_refl) as (a5 & o5 & A5 & _ & _ & H5 & ->).
  assert (PT : forall f i a a', fget f1 f = Some (ptr i) -> fget fs f = Some (ptr a') -> at1 ad i = Some a -> a' = a).
  { intros f i a a' X Y Z. destruct (RF _ _ X) as (w2 & W & v2 & -> & (x & Q & ->)).
    rewrite W in Y. injection Y as <-. congruence. }
  assert (TI' := TI). unfold this_in, this_flds in TI'.
  assert (E1 : a_et A = a1) by (eapply (PT "elem_type"); [exact F1'|apply TI'; cbn; tauto|exact A1]).
  assert (E2 : a_ml A = a2) by (eapply (PT "material_list"); [exact F2|apply TI'; cbn; tauto|exact A2]).
  assert (E3 : a_vo A = a3) by (eapply (PT "vars_old"); [exact F3|apply TI'; cbn; tauto|exact A3]).
  assert (E4 : a_vn A = a4) by (eapply (PT "vars_new"); [exact F4|apply TI'; cbn; tauto|exact A4]).
  assert (E5 : a_u A = a5) by (eapply (PT "u"); [exact F5|apply TI'; cbn; tauto|exact A5]).
  subst a1 a2 a3 a4 a5. clear TI' PT.
  exists (mkPlace a0 (a_et A) (a_ml A) (a_vo A) (a_vn A) (a_u A) (a_b A) (a_du A) (a_A A) (a_es A) (a_en A)).
  assert (TI2 : this_in fs V (mkPlace a0 (a_et A) (a_ml A) (a_vo A) (a_vn A) (a_u A) (a_b A) (a_du A) (a_A A) (a_es A) (a_en A)))
    by exact TI.
  split; [exists fs, l2; cbn [a_this a_et a_ml a_vo a_vn a_u]; splits; assumption|].
  split; [exact H0|]. split; [exact TI2|]. cbn. repeat (constructor; [assumption|]). constructor.
Qed.

Fixpoint somes {X} (l : list (option X)) : option (list X) :=
  match l with
  | [] => Some []
  | Some x :: l => match somes l with Some l => Some (x :: l) | None => None end
  | None :: _ => None
  end.
Definition g_eps (r : res (list T)) : list T := match r with Ok e => e | Err _ => [] end.
Definition g_nl (r : res (bool * list T * arr T)) : bool := match r with Ok (n, _, _) => n | Err _ => false end.
Definition g_sig (r : res (bool * list T * arr T)) : list T := match r with Ok (_, s, _) => s | Err _ => [] end.
Definition g_vn (vn : arr T) (r : res (bool * list T * arr T)) : arr T := match r with Ok (_, _, v) => v | Err _ => vn end.

Section Gen.
Variable W : fields -> fields -> arr Z -> list fields -> Prop.
Variable gst : arr T -> Z -> Z -> Z -> Z -> res (list T).
Variable gss : arr T -> arr T -> Z -> Z -> Z -> Z -> list T -> res (bool * list T * arr T).

Definition sm_strain : @summary T := fun m vs =>
  match pref m, vs with
  | Some (fs, f1, et, l2, vo, vn, u), [VP 0 0; VI ex; VI ey; VI ez; VI gp; VP b 0] =>
      match at1 m b with
      | Some (Some (D1 l)) =>
          if Nat.eqb (List.length l) 6 && (6 <=? b) then
            bind1 (when1 (0 <= gp < 8) tt) (fun _ =>
            bind1 (when1 (W fs f1 et l2) tt) (fun _ =>
            let r := gst u ex ey ez gp in
            bind1 (when1 (r = Ok (g_eps r)) tt) (fun _ =>
              ret1 (repl1 (Z.to_nat b) (Some (D1 (fc 6 (lget (g_eps r))))) m))))
          else none1
      | _ => none1
      end
  | _, _ => none1
  end.

Definition sm_stress : @summary T := fun m vs =>
  match pref m, vs with
  | Some (fs, f1, et, l2, vo, vn, u), [VP 0 0; VI ex; VI ey; VI ez; VI gp; VP be 0; VP bl 0; VP bs 0] =>
      match at1 m be, at1 m bl, at1 m bs with
      | Some (Some (D1 le)), Some (Some (I1 ll)), Some (Some (D1 ls)) =>
          if Nat.eqb (List.length le) 6 && Nat.eqb (List.length ll) 1 && Nat.eqb (List.length ls) 6 &&
             (6 <=? be) && (6 <=? bl) && (6 <=? bs) && negb (be =? bs) then
            bind1 (opt1 (somes le)) (fun eps =>
            bind1 (when1 (W fs f1 et l2) tt) (fun _ =>
            let r := gss vo vn ex ey ez gp eps in
            bind1 (when1 (r = Ok (g_nl r, g_sig r, g_vn vn r)) tt) (fun _ =>
              ret1 (repl1 (Z.to_nat bs) (Some (D1 (fc 6 (lget (g_sig r)))))
                   (repl1 (Z.to_nat bl) (Some (I1 [Some (if g_nl r then 1 else 0)]))
                   (repl1 4%nat (Some (Opq (g_vn vn r))) m))))))
          else none1
      | _, _, _ => none1
      end
  | _, _ => none1
  end.
End Gen.

Lemma somes_map {X} (l : list (option X)) : forall e, somes l = Some e -> l = map Some e.
Proof.
  induction l as [|[x|] l IH]; cbn; intros e E; try discriminate.
  - now injection E as <-.
  - destruct (somes l) as [e'|]; [|discriminate]. injection E as <-. cbn. f_equal. now apply IH.
Qed.
Lemma somes_vec (a : arr T) l e : cells a l -> somes l = Some e -> vec (List.length l) a e.
Proof.
  intros (L & C) S. apply somes_map in S. subst l. rewrite map_length in *. split; [exact L|].
  intros i R. rewrite <- (Z2Nat.id i) at 1 by lia. apply C. rewrite nth_error_map.
  rewrite (nth_error_nth' _ (ofZ 0)) by lia. reflexivity.
Qed.

Lemma sm_strain_ok V : v_dim V = 3 -> sum_ok asm_prog "get_strain3D" (sm_strain (Wok V) (get_strain3D V)).
Proof.
  intros D3 m vs q m' q2 p ad h k vs2 E AL SIM R. unfold sm_strain in E.
  destruct (pref m) as [[[[[[[fs f1] et] l2] vo] vn] u]|] eqn:PF; [|discriminate].
  destruct vs as [|[| |b0 o0|] vs]; try discriminate E.
  destruct b0; try discriminate E; destruct o0; try discriminate E.
  destruct vs as [|[ex| | |] vs]; try discriminate E.
  destruct vs as [|[ey| | |] vs]; try discriminate E.
  destruct vs as [|[ez| | |] vs]; try discriminate E.
  destruct vs as [|[gp| | |] vs]; try discriminate E.
  destruct vs as [|[| |b ob|] vs]; try discriminate E.
  destruct ob; try discriminate E. destruct vs; try discriminate E.
  destruct (at1 m b) as [[[l| | | | | | | | |]|]|] eqn:MB; try discriminate.
  destruct (Nat.eqb_spec (List.length l) 6) as [LL|]; [|discriminate].
  destruct (Z.leb_spec 6 b) as [NB|]; [|discriminate]. cbn [andb] in E.
  unfold when1, bind1, ret1 in E. injection E as <- <- <-. destruct AL as (GP & WK & OK & _).
  destruct (pref_body V _ _ _ _ _ _ _ _ _ _ _ PF SIM WK) as (A & BD & HT & TI & F6).
  destruct (msim_at _ _ _ _ _ _ SIM MB) as (ab & o3 & Ab & Lb & Ib & Hb & (aa & -> & CB)).
  assert (ND : NoDup ad) by apply SIM. assert (LK : forall c, In c ad -> c < k) by apply SIM.
  assert (N7 : NoDup (body_addrs A ++ [ab])%list).
  { apply (at1_NoDup ad ([0; 1; 2; 3; 4; 5] ++ [b])%list); [exact ND| |].
    - apply NoDup_app_snoc; [repeat constructor; cbn; lia|cbn; lia].
    - apply Forall2_app; [exact F6|]. constructor; [exact Ab|constructor]. }
  unfold body_addrs in N7, F6. cbn [app] in N7.
  inversion F6 as [|? ? ? ? X0 F']; subst. inversion F' as [|? ? ? ? X1 F'']; subst.
  inversion F'' as [|? ? ? ? X2 F3]; subst. inversion F3 as [|? ? ? ? X3 F4]; subst.
  inversion F4 as [|? ? ? ? X4 F5]; subst. inversion F5 as [|? ? ? ? X5 F7]; subst. clear F6 F' F'' F3 F4 F5 F7.
  repeat match goal with H : Forall2 (rvr ad) (_ :: _) _ |- _ => inversion H; clear H; subst end.
  match goal with H : Forall2 (rvr ad) [] _ |- _ => inversion H; clear H; subst end.
  repeat match goal with H : rvr ad (VI _) _ |- _ => cbn in H; subst end.
  repeat match goal with H : rvr ad (VP _ _) _ |- _ => let x := fresh "x" in let X := fresh "X" in destruct H as (x & X & ->) end.
  match goal with |- context [[VP ?x 0; VI _; VI _; VI _; VI _; VP ?y 0]] =>
    assert (x = a_this A) by congruence; assert (y = ab) by congruence; subst x y end.
  destruct BD as (fs' & l2' & Q0 & Q1 & Q2 & Q3 & Q4 & Q5 & Q6 & Q7).
  destruct (get_strain3D_text V A fs u h k (a_this A) (a_u A) ab aa ex ey ez gp
    (g_eps (get_strain3D V u ex ey ez gp)) D3 GP)
    as (st & ab' & C & M & CE & FR & KN); auto.
  { clear -N7. inversion_clear N7 as [|? ? I0 N6]. inversion_clear N6 as [|? ? I1 N5].
    inversion_clear N5 as [|? ? I2 N4]. inversion_clear N4 as [|? ? I3 N3]. inversion_clear N3 as [|? ? I4 N2].
    inversion_clear N2 as [|? ? I5 N1]. cbn in *. repeat constructor; cbn; tauto. }
  { repeat constructor; auto; apply LK; eapply at1_in; eauto. }
  { destruct CB as (LB & _). rewrite LB, LL. reflexivity. }
  exists st, Nrm. split; [exact C|]. split; [discriminate|]. split.
  - apply (msim_upds ad (mem st) (nxt st) [mkUpd b ab (D1 (fc 6 (lget (g_eps (get_strain3D V u ex ey ez gp))))) (OD ab')] _ h k); auto.
    constructor; [|constructor]. cbn -[fc]. split; [exact Ab|]. split; [|exact M]. eexists. split; [reflexivity|].
    now apply vec_cells.
  - split; [exact KN|]. intros c LC N. apply FR; [exact LC|]. cbn. intros [<-|[]]. auto.
Qed.

Lemma sm_stress_ok V : v_dim V = 3 -> sum_ok asm_prog "get_stress3D" (sm_stress (Wok V) (get_stress3D V)).
Proof.
  intros D3 m vs q m' q2 p ad h k vs2 E AL SIM R. unfold sm_stress in E.
  destruct (pref m) as [[[[[[[fs f1] et] l2] vo] vn] u]|] eqn:PF; [|discriminate].
  destruct vs as [|[| |b0 o0|] vs]; try discriminate E.
  destruct b0; try discriminate E; destruct o0; try discriminate E.
  destruct vs as [|[ex| | |] vs]; try discriminate E.
  destruct vs as [|[ey| | |] vs]; try discriminate E.
  destruct vs as [|[ez| | |] vs]; try discriminate E.
  destruct vs as [|[gp| | |] vs]; try discriminate E.
  destruct vs as [|[| |be oe|] vs]; try discriminate E. destruct oe; try discriminate E.
  destruct vs as [|[| |bl ol|] vs]; try discriminate E. destruct ol; try discriminate E.
  destruct vs as [|[| |bs os|] vs]; try discriminate E. destruct os; try discriminate E.
  destruct vs; try discriminate E.
  destruct (at1 m be) as [[[le| | | | | | | | |]|]|] eqn:MB; try discriminate E.
  destruct (at1 m bl) as [[[|ll| | | | | | | |]|]|] eqn:ML; try discriminate E.
  destruct (at1 m bs) as [[[ls| | | | | | | | |]|]|] eqn:MS; try discriminate E.
  destruct (Nat.eqb_spec (List.length le) 6) as [LE|]; [|discriminate].
  destruct (Nat.eqb_spec (List.length ll) 1) as [LL|]; [|discriminate].
  destruct (Nat.eqb_spec (List.length ls) 6) as [LS|]; [|discriminate].
  destruct (Z.leb_spec 6 be) as [NE|]; [|discriminate].
  destruct (Z.leb_spec 6 bl) as [NL|]; [|discriminate].
  destruct (Z.leb_spec 6 bs) as [NS|]; [|discriminate].
  destruct (Z.eqb_spec be bs) as [|NES]; [discriminate|]. cbn [andb negb] in E.
  destruct (somes le) as [eps|] eqn:SO; [|discriminate].
  cbv zeta in E. unfold when1, bind1, ret1, opt1 in E.
  set (r := get_stress3D V vo vn ex ey ez gp eps) in *.
  injection E as <- <- <-. destruct AL as (WK & OK & _).
  destruct (pref_body V _ _ _ _ _ _ _ _ _ _ _ PF SIM WK) as (A & BD & HT & TI & F6).
  destruct (msim_at _ _ _ _ _ _ SIM MB) as (ae & o1 & Ae & Le & Ie & He & (xe & -> & CE)).
  destruct (msim_at _ _ _ _ _ _ SIM ML) as (al & o2 & Al & Ll & Il & Hl & (xl & -> & CL)).
  destruct (msim_at _ _ _ _ _ _ SIM MS) as (as_ & o3 & As & Ls & Is & Hs & (xs & -> & CS)).
  assert (ND : NoDup ad) by apply SIM. assert (LK : forall c, In c ad -> c < k) by apply SIM.
  assert (NEL : be <> bl) by congruence. assert (NLS : bl <> bs) by congruence.
  assert (N9 : NoDup (body_addrs A ++ [ae; al; as_])%list).
  { apply (at1_NoDup ad ([0; 1; 2; 3; 4; 5] ++ [be; bl; bs])%list); [exact ND| |].
    - cbn [app]. repeat constructor; cbn; lia.
    - apply Forall2_app; [exact F6|]. repeat constructor; assumption. }
  assert (K9 : Forall (fun a => a < k) (body_addrs A ++ [ae; al; as_])%list).
  { apply Forall_app. split; [|repeat constructor; assumption]. clear -F6 LK.
    apply Forall_forall. intros a I.
    assert (J : exists i, at1 ad i = Some a).
    { induction F6 as [|i b x y H F IH]; [contradiction|]. destruct I as [<-|I]; eauto. }
    destruct J as (i & J). apply LK. eapply at1_in; eauto. }
  assert (X0 : at1 ad 0 = Some (a_this A)) by (inversion F6; assumption).
  assert (X4 : at1 ad 4 = Some (a_vn A)).
  { clear -F6. unfold body_addrs in F6.
    inversion_clear F6 as [|? ? ? ? _ F1']. inversion_clear F1' as [|? ? ? ? _ F2].
    inversion_clear F2 as [|? ? ? ? _ F3]. inversion_clear F3 as [|? ? ? ? _ F4]. now inversion_clear F4. }
  repeat match goal with H : Forall2 (rvr ad) (_ :: _) _ |- _ => inversion H; clear H; subst end.
  match goal with H : Forall2 (rvr ad) [] _ |- _ => inversion H; clear H; subst end.
  repeat match goal with H : rvr ad (VI _) _ |- _ => cbn in H; subst end.
  repeat match goal with H : rvr ad (VP _ _) _ |- _ => let x := fresh "x" in let X := fresh "X" in destruct H as (x & X & ->) end.
  match goal with |- context [[VP ?x 0; VI _; VI _; VI _; VI _; VP ?y 0; VP ?y1 0; VP ?y2 0]] =>
    assert (x = a_this A) by congruence; assert (y = ae) by congruence;
    assert (y1 = al) by congruence; assert (y2 = as_) by congruence; subst x y y1 y2 end.
  destruct (get_stress3D_text V A vo vn u h k ae al as_ xe eps xl xs ex ey ez gp
    (g_nl r) (g_sig r) (g_vn vn r) D3 N9 K9 BD He)
    as (st & fl' & as' & C & BD' & M1 & M2 & M3 & M4 & M5 & FR & KN); auto.
  { rewrite <- LE. eapply somes_vec; eauto. }
  { destruct CL as (Q & _). rewrite Q, LL. reflexivity. }
  { destruct CS as (Q & _). rewrite Q, LS. reflexivity. }
  destruct BD' as (fs' & l2' & _ & _ & _ & _ & _ & _ & Q6 & _).
  exists st, Nrm. split; [exact C|]. split; [discriminate|]. split.
  - apply (msim_upds ad (mem st) (nxt st)
      [mkUpd 4 (a_vn A) (Opq (g_vn vn r)) (OD (g_vn vn r));
       mkUpd bl al (I1 [Some (if g_nl r then 1 else 0)]) (OI fl');
       mkUpd bs as_ (D1 (fc 6 (lget (g_sig r)))) (OD as')] _ h k); auto.
    + repeat constructor; try assumption; cbn -[fc].
      * eexists. split; [reflexivity|]. now apply one_cells.
      * eexists. split; [reflexivity|]. now apply vec_cells.
    + intros c LC N. apply FR; [exact LC|]. cbn in *. tauto.
  - split; [exact KN|]. intros c LC N. apply FR; [exact LC|]. cbn. intros [<-|[<-|[<-|[]]]]; auto.
    apply N. eapply at1_in; eauto.
Qed.
End Asm.
