(** The syntax trees of src/assembly.cpp against the model: calc_ave_stress, calc_ave_strain and calc_fields
    for two dimensions. *)
From Coq Require Import String.
From Verif Require Import Base Scalar Clite CliteRules EllAst AsmAst Sym SymStep SymFold Grid EllModel AssemblyModel
  EllLit2 AsmLit AsmLit2 AsmLit3 AsmLit4 AsmLit5 AsmLit6 AsmLit7 AsmLit8 AsmLit10 AsmLit11 AsmLit12 AsmLit13 AsmLit18 AsmLit19 AsmLit20 AsmLit22.
Local Open Scope string_scope.
Local Open Scope Z_scope.

Section Asm.
Context {T : Type} `{OT : Ops T}.
Notation val := (@val T). Notation obj := (@obj T). Notation obj1 := (@obj1 T).
Notation fields := (list (string * option val)).
Notation SM0 := (fun _ : string => @None (@summary T)).

(** ** summaries of get_strain2D and get_stress2D *)
Definition res2 : Type := res (bool * list T).
Definition g2_nl (r : res2) : bool := match r with Ok (n, _) => n | Err _ => false end.
Definition g2_sig (r : res2) : list T := match r with Ok (_, s) => s | Err _ => [] end.
Definition fe2 (e : list T) : list T := ltab 3 (lget e).
Definition sm_strain2 (W : fields -> fields -> arr Z -> list fields -> Prop) (gst : arr T -> Z -> Z -> Z -> res (list T)) : @summary T := fun m vs =>
  match pref m, vs with
  | Some (fs, f1, et, l2, vo, vn, u), [VP 0 0; VI ex; VI ey; VI gp; VP b 0] =>
      match at1 m b with
      | Some (Some (D1 l)) =>
          if (Nat.eqb (List.length l) 3 || Nat.eqb (List.length l) 6) && (6 <=? b) then
            bind1 (when1 (0 <= gp < 4) tt) (fun _ =>
            bind1 (when1 (W fs f1 et l2) tt) (fun _ =>
            let r := gst u ex ey gp in
            bind1 (when1 (r = Ok (g_eps r)) tt) (fun _ =>
              ret1 (repl1 (Z.to_nat b) (Some (D1 (fc 3 (lget (g_eps r)) ++ nc (List.length l - 3))%list)) m))))
          else none1
      | _ => none1
      end
  | _, _ => none1
  end.
Definition sm_stress2 (W : fields -> fields -> arr Z -> list fields -> Prop) (gss : Z -> Z -> Z -> list T -> res2) : @summary T := fun m vs =>
  match pref m, vs with
  | Some (fs, f1, et, l2, vo, vn, u), [VP 0 0; VI ex; VI ey; VI gp; VP be 0; VP bl 0; VP bs 0] =>
      match at1 m be, at1 m bl, at1 m bs with
      | Some (Some (D1 le)), Some (Some (I1 ll)), Some (Some (D1 ls)) =>
          if Nat.eqb (List.length le) 3 && Nat.eqb (List.length ll) 1 && (Nat.eqb (List.length ls) 3 || Nat.eqb (List.length ls) 6) &&
             (6 <=? be) && (6 <=? bl) && (6 <=? bs) && negb (be =? bs) then
            bind1 (opt1 (somes le)) (fun eps =>
            bind1 (when1 (W fs f1 et l2) tt) (fun _ =>
            let r := gss ex ey gp eps in
            bind1 (when1 (r = Ok (g2_nl r, g2_sig r)) tt) (fun _ =>
              ret1 (repl1 (Z.to_nat bs) (Some (D1 (fc 3 (lget (g2_sig r)) ++ nc (List.length ls - 3))%list))
                   (repl1 (Z.to_nat bl) (Some (I1 [Some (if g2_nl r then 1 else 0)])) m)))))
          else none1
      | _, _, _ => none1
      end
  | _, _ => none1
  end.

Lemma pvec_cells (a : arr T) l n : (n = 3%nat \/ n = 6%nat) -> alen a = Z.of_nat n -> pvec 3 a l -> cells a (fc 3 (lget l) ++ nc (n - 3))%list.
Proof.
  intros N L P. split.
  - rewrite L. destruct N as [-> | ->]; reflexivity.
  - intros i v E. assert (I : (i < 3)%nat).
    { destruct (le_lt_dec 3 i) as [I|I]; [|exact I]. exfalso.
      do 3 (destruct i as [|i]; [lia|]). destruct N as [-> | ->]; cbn in E; repeat (destruct i as [|i]; cbn in E; try discriminate). }
    rewrite (P (Z.of_nat i)) by lia. do 3 (destruct i as [|i]; [cbn in E; injection E as <-; reflexivity|]). lia.
Qed.
Lemma cells_pvec (a : arr T) f n : cells a (fc 3 f ++ nc n)%list -> forall i, 0 <= i < 3 -> aget a i = Some (f i).
Proof.
  intros (_ & C) i I. assert (J : i = 0 \/ i = 1 \/ i = 2) by lia.
  destruct J as [-> |[-> | ->]]; [apply (C 0%nat)|apply (C 1%nat)|apply (C 2%nat)]; reflexivity.
Qed.

Lemma sm_strain2_ok V : v_dim V = 2 -> sum_ok asm_prog "get_strain2D" (sm_strain2 (Wok V) (get_strain2D V)).
Proof.
  intros D2 m vs q m' q2 p ad h k vs2 E AL SIM R. unfold sm_strain2 in E.
  destruct (pref m) as [[[[[[[fs f1] et] l2] vo] vn] u]|] eqn:PF; [|discriminate].
  destruct vs as [|[| |b0 o0|] vs]; try discriminate E.
  destruct b0; try discriminate E; destruct o0; try discriminate E.
  destruct vs as [|[ex| | |] vs]; try discriminate E.
  destruct vs as [|[ey| | |] vs]; try discriminate E.
  destruct vs as [|[gp| | |] vs]; try discriminate E.
  destruct vs as [|[| |b ob|] vs]; try discriminate E.
  destruct ob; try discriminate E. destruct vs; try discriminate E.
  destruct (at1 m b) as [[[l| | | | | | | | |]|]|] eqn:MB; try discriminate.
  destruct (Nat.eqb (List.length l) 3 || Nat.eqb (List.length l) 6)%bool eqn:LL; [|discriminate].
  assert (LL' : List.length l = 3%nat \/ List.length l = 6%nat).
  { apply Bool.orb_true_iff in LL. destruct LL as [LL|LL]; apply Nat.eqb_eq in LL; auto. }
  destruct (Z.leb_spec 6 b) as [NB|]; [|discriminate]. cbn [andb] in E.
  unfold when1, bind1, ret1 in E. injection E as <- <- <-. destruct AL as (GP & WK & OK & _).
  destruct (pref_body V _ _ _ _ _ _ _ _ _ _ _ PF SIM WK) as (A & BD & HT & TI & F6).
  destruct (msim_at _ _ _ _ _ _ SIM MB) as (ab & o3 & Ab & Lb & Ib & Hb & (aa & -> & CB)).
  assert (ND : NoDup ad) by apply SIM. assert (LK : forall c, In c ad -> c < k) by apply SIM.
  assert (N7 : NoDup (body_addrs A ++ [ab])%list).
  { apply (at1_NoDup ad ([0; 1; 2; 3; 4; 5] ++ [b])%list); [exact ND| |].
    - apply NoDup_app_snoc; [repeat constructor; cbn; lia|cbn; lia].
    - apply Forall2_app; [exact F6|]. constructor; [exact Ab|constructor]. }
  assert (K7 : Forall (fun a => a < k) (body_addrs A ++ [ab])%list).
  { apply Forall_app. split; [|repeat constructor; assumption]. clear -F6 LK.
    apply Forall_forall. intros a I.
    assert (J : exists i, at1 ad i = Some a).
    { induction F6 as [|i b x y H F IH]; [contradiction|]. destruct I as [<-|I]; eauto. }
    destruct J as (i & J). apply LK. eapply at1_in; eauto. }
  assert (X0 : at1 ad 0 = Some (a_this A)) by (inversion F6; assumption).
  repeat match goal with H : Forall2 (rvr ad) (_ :: _) _ |- _ => inversion H; clear H; subst end.
  match goal with H : Forall2 (rvr ad) [] _ |- _ => inversion H; clear H; subst end.
  repeat match goal with H : rvr ad (VI _) _ |- _ => cbn in H; subst end.
  repeat match goal with H : rvr ad (VP _ _) _ |- _ => let x := fresh "x" in let X := fresh "X" in destruct H as (x & X & ->) end.
  match goal with |- context [[VP ?x 0; VI _; VI _; VI _; VP ?y 0]] =>
    assert (x = a_this A) by congruence; assert (y = ab) by congruence; subst x y end.
  assert (LA : alen aa = Z.of_nat (List.length l)) by apply CB.
  assert (LA' : alen aa = 3 \/ alen aa = 6). { rewrite LA. destruct LL' as [-> | ->]; auto. }
  destruct (get_strain2D_text V A vo vn u h k ab aa ex ey gp (g_eps (get_strain2D V u ex ey gp)) D2 GP N7 K7 BD Hb LA' OK)
    as (st & ab' & C & _ & M & LE & CE & FR & KN).
  exists st, Nrm. split; [exact C|]. split; [discriminate|]. split.
  - apply (msim_upds ad (mem st) (nxt st) [mkUpd b ab (D1 (fc 3 (lget (g_eps (get_strain2D V u ex ey gp))) ++ nc (List.length l - 3))%list) (OD ab')] _ h k); auto.
    constructor; [|constructor]. cbn -[fc nc]. split; [exact Ab|]. split; [|exact M]. eexists. split; [reflexivity|].
    apply pvec_cells; [exact LL'|congruence|exact CE].
  - split; [exact KN|]. intros c LC N. apply FR; [exact LC|]. cbn. intros [<-|[]]. auto.
Qed.

Lemma sm_stress2_ok V : v_dim V = 2 -> sum_ok asm_prog "get_stress2D" (sm_stress2 (Wok V) (get_stress2D V)).
Proof.
  intros D2 m vs q m' q2 p ad h k vs2 E AL SIM R. unfold sm_stress2 in E.
  destruct (pref m) as [[[[[[[fs f1] et] l2] vo] vn] u]|] eqn:PF; [|discriminate].
  destruct vs as [|[| |b0 o0|] vs]; try discriminate E.
  destruct b0; try discriminate E; destruct o0; try discriminate E.
  destruct vs as [|[ex| | |] vs]; try discriminate E.
  destruct vs as [|[ey| | |] vs]; try discriminate E.
  destruct vs as [|[gp| | |] vs]; try discriminate E.
  destruct vs as [|[| |be oe|] vs]; try discriminate E.
  destruct oe; try discriminate E.
  destruct vs as [|[| |bl ol|] vs]; try discriminate E.
  destruct ol; try discriminate E.
  destruct vs as [|[| |b ob|] vs]; try discriminate E.
  destruct ob; try discriminate E. destruct vs; try discriminate E.
  destruct (at1 m be) as [[[le| | | | | | | | |]|]|] eqn:ME; try discriminate.
  destruct (at1 m bl) as [[[|ll| | | | | | | |]|]|] eqn:ML; try discriminate.
  destruct (at1 m b) as [[[ls| | | | | | | | |]|]|] eqn:MB; try discriminate.
  destruct (Nat.eqb_spec (List.length le) 3) as [L3|]; [|discriminate].
  destruct (Nat.eqb_spec (List.length ll) 1) as [L1|]; [|discriminate].
  destruct (Nat.eqb (List.length ls) 3 || Nat.eqb (List.length ls) 6)%bool eqn:LS; [|discriminate].
  destruct (Z.leb_spec 6 be) as [NE|]; [|discriminate].
  destruct (Z.leb_spec 6 bl) as [NL|]; [|discriminate].
  destruct (Z.leb_spec 6 b) as [NB|]; [|discriminate].
  destruct (Z.eqb_spec be b) as [|NEB]; [discriminate|]. cbn [andb negb] in E.
  destruct (somes le) as [eps|] eqn:SO; [|discriminate]. cbv zeta in E.
  set (r := get_stress2D V ex ey gp eps) in *.
  unfold opt1, when1, bind1, ret1 in E. injection E as <- <- <-. destruct AL as (WK & OK & _).
  assert (LS' : List.length ls = 3%nat \/ List.length ls = 6%nat).
  { apply Bool.orb_true_iff in LS. destruct LS as [LS|LS]; apply Nat.eqb_eq in LS; auto. }
  destruct (pref_body V _ _ _ _ _ _ _ _ _ _ _ PF SIM WK) as (A & BD & HT & TI & F6).
  destruct (msim_at _ _ _ _ _ _ SIM MB) as (ab & o3 & Ab & Lb & Ib & Hb & (aa & -> & CB)).
  destruct (msim_at _ _ _ _ _ _ SIM ML) as (al & o4 & Al & Ll & Il & Hl & (fl & -> & CL)).
  destruct (msim_at _ _ _ _ _ _ SIM ME) as (ae & o5 & Ae & Le & Ie & He & (ea & -> & CE)).
  assert (ND : NoDup ad) by apply SIM. assert (LK : forall c, In c ad -> c < k) by apply SIM.
  assert (NBL : b <> bl) by congruence. assert (NEL : be <> bl) by congruence.
  assert (N7 : NoDup (body_addrs A ++ [ae; al; ab])%list).
  { apply (at1_NoDup ad ([0; 1; 2; 3; 4; 5] ++ [be; bl; b])%list); [exact ND| |].
    - repeat constructor; cbn; lia.
    - apply Forall2_app; [exact F6|]. repeat (constructor; [assumption|]). constructor. }
  assert (K7 : Forall (fun a => a < k) (body_addrs A ++ [ae; al; ab])%list).
  { apply Forall_app. split; [|repeat constructor; assumption]. clear -F6 LK.
    apply Forall_forall. intros a I.
    assert (J : exists i, at1 ad i = Some a).
    { induction F6 as [|i b x y H F IH]; [contradiction|]. destruct I as [<-|I]; eauto. }
    destruct J as (i & J). apply LK. eapply at1_in; eauto. }
  assert (X0 : at1 ad 0 = Some (a_this A)) by (inversion F6; assumption).
  repeat match goal with H : Forall2 (rvr ad) (_ :: _) _ |- _ => inversion H; clear H; subst end.
  match goal with H : Forall2 (rvr ad) [] _ |- _ => inversion H; clear H; subst end.
  repeat match goal with H : rvr ad (VI _) _ |- _ => cbn in H; subst end.
  repeat match goal with H : rvr ad (VP _ _) _ |- _ => let x := fresh "x" in let X := fresh "X" in destruct H as (x & X & ->) end.
  match goal with |- context [[VP ?x 0; VI _; VI _; VI _; VP ?t 0; VP ?z 0; VP ?y 0]] =>
    assert (x = a_this A) by congruence; assert (t = ae) by congruence; assert (y = ab) by congruence; assert (z = al) by congruence; subst x t y z end.
  assert (VE : vec 3 ea eps). { pose proof (somes_vec _ _ _ CE SO) as Q. rewrite L3 in Q. exact Q. }
  assert (LA : alen aa = Z.of_nat (List.length ls)) by apply CB.
  assert (LF : alen fl = 1). { destruct CL as (LB & _). rewrite LB, L1. reflexivity. }
  assert (LA' : alen aa = 3 \/ alen aa = 6). { rewrite LA. destruct LS' as [-> | ->]; auto. }
  destruct (get_stress2D_text V A vo vn u h k ae al ab ea eps fl aa ex ey gp (g2_nl r) (g2_sig r) D2 N7 K7 BD He VE Hl LF Hb LA' OK)
    as (st & fl' & as' & C & _ & M0 & M1 & L1' & F1 & M2 & LE & CS & FR & KN).
  exists st, Nrm. split; [exact C|]. split; [discriminate|]. split.
  - apply (msim_upds ad (mem st) (nxt st)
      [mkUpd bl al (I1 [Some (if g2_nl r then 1 else 0)]) (OI fl');
       mkUpd b ab (D1 (fc 3 (lget (g2_sig r)) ++ nc (List.length ls - 3))%list) (OD as')] _ h k); [exact SIM|exact KN| |].
    2:{ intros c LC N. apply FR; [exact LC|]. intros I. apply N. cbn in *. tauto. }
    repeat constructor; try assumption; cbn -[fc nc].
    + eexists. split; [reflexivity|]. split; [exact L1'|]. intros [|[|i]] v V'; cbn in V'; try discriminate.
      injection V' as <-. exact F1.
    + eexists. split; [reflexivity|]. apply pvec_cells; [exact LS'|congruence|exact CS].
  - split; [exact KN|]. intros c LC N. apply FR; [exact LC|]. cbn. intros [<-|[<-|[]]]; auto.
Qed.

Definition av_2 : stmt := Eval cbv in match nth 2 av_list SSkip with SIf _ b _ => b | _ => SSkip end.
Definition av_el2 : stmt := Eval cbv in for_body (for_body av_2).
Definition an_2 : stmt := Eval cbv in match nth 1 an_list SSkip with SIf _ b _ => b | _ => SSkip end.
Definition an_el2 : stmt := Eval cbv in for_body (for_body an_2).
Definition cf_2 : stmt := Eval cbv in match nth 1 cf_list SSkip with SIf _ b _ => b | _ => SSkip end.
Definition cf_el2 : stmt := Eval cbv in for_body (for_body cf_2).
Definition p62 (V : env T) (fs : fields) l2 vold vnew u : list (option obj1) :=
  [Some (R1 fs (this_flds 2 (v_type V) V (ptr 1) (ptr 2) (ptr 3) (ptr 4) (ptr 5) None None None None None));
   Some (K1 (v_etype V) 0); Some (V1 l2 []); Some (Opq vold); Some (Opq vnew); Some (Opq u)].
Definition f3 (a : list T) : list (option T) := (fc 3 (lget a) ++ nc 3)%list.

Section Gen.
Variable V : env T.
Variable W : fields -> fields -> arr Z -> list fields -> Prop.
Variable gst : arr T -> Z -> Z -> Z -> res (list T).
Variable gss : Z -> Z -> Z -> list T -> res2.
Definition SM6 : string -> option (@summary T) := fun f =>
  if String.eqb f "get_strain2D" then Some (sm_strain2 W gst)
  else if String.eqb f "get_stress2D" then Some (sm_stress2 W gss) else None.
Variables (u vold vn : arr T) (fs : fields) (l2 : list fields).
Definition WC2 : Prop := W fs (this_flds 2 (v_type V) V (ptr 1) (ptr 2) (ptr 3) (ptr 4) (ptr 5) None None None None None) (v_etype V) l2.

(** the Gauss points of an element *)
Definition a2_r1 (ex ey gp : Z) := gst u ex ey gp.
Definition a2_r2 (ex ey gp : Z) := gss ex ey gp (fe2 (g_eps (a2_r1 ex ey gp))).
Definition a2_step (ex ey : Z) (st : list T) (gp : Z) : list T := add_ave 3 (g2_sig (a2_r2 ex ey gp)) (wg2 V) st.
Definition a2_conds (ex ey gp : Z) : list Prop :=
  [0 <= gp < 4; WC2; a2_r1 ex ey gp = Ok (g_eps (a2_r1 ex ey gp)); WC2; a2_r2 ex ey gp = Ok (g2_nl (a2_r2 ex ey gp), g2_sig (a2_r2 ex ey gp))].
Definition a2_mem (st : list T) (fl : list (option Z)) : list (option obj1) :=
  (p62 V fs l2 vold vn u ++ [Some (D1 (f3 st)); Some (I1 fl)])%list.
Definition a2_W (st : list T) : @st1 T := mk1 av_env (a2_mem st (nc 1)).
Definition a2_end (ex ey : Z) : list T := fold_left (a2_step ex ey) (zrange 0 4) (zeros 3).
Lemma a2_run ex ey st :
  cut3 8 ["ey"; "ex"; "this"; "stress_ave"; "non_linear_flag"]
    (out3 (execs1 asm_prog SM6 100 [av_el2] (with1 "ey" ey (with1 "ex" ex (a2_W st))) [])) =
  Some (with1 "ey" ey (with1 "ex" ex (mk1 av_env (a2_mem (add_vec 3 (a2_end ex ey) st)
          [Some (if g2_nl (a2_r2 ex ey 3) then 1 else 0)]))),
        flat_map (a2_conds ex ey) (zrange 0 4)).
Proof. vmr. Qed.
Definition a2_pre (av : list (option T)) : @st1 T :=
  mk1 [("this", VP 0 0); ("stress_ave", VP 6 0)] (p62 V fs l2 vold vn u ++ [Some (D1 av)])%list.
Lemma a2_run0 :
  out3 (execs1 asm_prog SM0 20 (firstn 2 av_list) (a2_pre (nc 6)) []) =
  Some (mk1 (av_env ++ [("v", VI 3)])%list (m1 (a2_W (zeros 3))), []).
Proof. vmr. Qed.
Lemma a2_run1 st :
  cut3 8 [] (out3 (execs1 asm_prog SM0 20 [nth 3 av_list SSkip] (a2_W st) [])) =
  Some (mk1 [] (a2_mem (ltab 3 (fun v => odiv (lget st v) (omul (v_lx V) (v_ly V)))) (nc 1)), []).
Proof. vmr. Qed.

(** the strain *)
Definition n2_step (ex ey : Z) (a : list T) (gp : Z) : list T := add_ave 3 (g_eps (a2_r1 ex ey gp)) (wg2 V) a.
Definition n2_conds (ex ey gp : Z) : list Prop := [0 <= gp < 4; WC2; a2_r1 ex ey gp = Ok (g_eps (a2_r1 ex ey gp))].
Definition n2_W (av : list T) : @st1 T :=
  mk1 [("this", VP 0 0); ("strain_ave", VP 6 0)] (p62 V fs l2 vold vn u ++ [Some (D1 (f3 av))])%list.
Lemma n2_run ex ey av :
  cut3 7 ["ey"; "ex"; "this"; "strain_ave"]
    (out3 (execs1 asm_prog SM6 100 [an_el2] (with1 "ey" ey (with1 "ex" ex (n2_W av))) [])) =
  Some (with1 "ey" ey (with1 "ex" ex (n2_W (add_vec 3 (fold_left (n2_step ex ey) (zrange 0 4) (zeros 3)) av))),
        flat_map (n2_conds ex ey) (zrange 0 4)).
Proof. vmr. Qed.
Lemma n2_run0 :
  cut3 7 ["this"; "strain_ave"] (out3 (execs1 asm_prog SM0 20 (firstn 1 an_list)
    (mk1 [("this", VP 0 0); ("strain_ave", VP 6 0)] (p62 V fs l2 vold vn u ++ [Some (D1 (nc 6))])%list) [])) = Some (n2_W (zeros 3), []).
Proof. vmr. Qed.
Lemma n2_run1 av :
  cut3 7 [] (out3 (execs1 asm_prog SM0 20 [nth 2 an_list SSkip] (n2_W av) [])) =
  Some (mk1 [] (m1 (n2_W (ltab 3 (fun v => odiv (lget av v) (omul (v_lx V) (v_ly V)))))), []).
Proof. vmr. Qed.

(** the fields *)
Definition flds_f2 : fields :=
  this_flds 2 (v_type V) V (ptr 1) (ptr 2) (ptr 3) (ptr 4) (ptr 5) None None None (ptr 7) (ptr 6).
Definition p82 (es et : arr T) : list (option obj1) :=
  [Some (R1 fs flds_f2); Some (K1 (v_etype V) 0); Some (V1 l2 []); Some (Opq vold); Some (Opq vn); Some (Opq u);
   Some (Opq es); Some (Opq et)].
Definition WF2 : Prop := W fs flds_f2 (v_etype V) l2.
Definition c2_step (ex ey : Z) (st : list T * list T) (gp : Z) : list T * list T :=
  (add_ave 3 (g_eps (a2_r1 ex ey gp)) (wg2 V) (fst st), add_ave 3 (g2_sig (a2_r2 ex ey gp)) (wg2 V) (snd st)).
Definition c2_conds (ex ey gp : Z) : list Prop :=
  [0 <= gp < 4; WF2; a2_r1 ex ey gp = Ok (g_eps (a2_r1 ex ey gp)); WF2; a2_r2 ex ey gp = Ok (g2_nl (a2_r2 ex ey gp), g2_sig (a2_r2 ex ey gp))].
Definition c2_end (ex ey : Z) : list T * list T := fold_left (c2_step ex ey) (zrange 0 4) (zeros 3, zeros 3).
Lemma c2_end_eq ex ey : c2_end ex ey = fold_left (c2_step ex ey) (zrange 0 4) (zeros 3, zeros 3).
Proof. reflexivity. Qed.
Definition c2_mem (st : arr T * arr T) (fl : list (option Z)) : list (option obj1) := (p82 (fst st) (snd st) ++ [Some (I1 fl)])%list.
Definition c2_W (st : arr T * arr T) : @st1 T := mk1 cf_env (c2_mem st (nc 1)).
Definition c2_st (ex ey : Z) (a : list T) : list (Z * T) :=
  field_stores 3 (glo_elem3D (v_nx V) (v_ny V) ex ey 0) a (omul (v_dx V) (v_dy V)).
Lemma c2_run ex ey st : let r := c2_end ex ey in
  cut3 9 ["ey"; "ex"; "this"; "non_linear_flag"]
    (out3 (execs1 asm_prog SM6 100 [cf_el2] (with1 "ey" ey (with1 "ex" ex (c2_W st))) [])) =
  Some (with1 "ey" ey (with1 "ex" ex (mk1 cf_env (c2_mem
          (wrs (c2_st ex ey (fst r)) (fst st), wrs (c2_st ex ey (snd r)) (snd st))
          [Some (if g2_nl (a2_r2 ex ey 3) then 1 else 0)]))),
        (flat_map (c2_conds ex ey) (zrange 0 4) ++ cds2 (c2_st ex ey (fst r)) (c2_st ex ey (snd r)) (fst st) (snd st))%list).
Proof. cbv zeta. vmr. Qed.
Lemma c2_run0 st :
  out3 (execs1 asm_prog SM0 20 (firstn 1 cf_list) (mk1 [("this", VP 0 0)] (p82 (fst st) (snd st))) []) =
  Some (c2_W st, []).
Proof. vmr. Qed.
End Gen.

Lemma SM6_ok V : v_dim V = 2 -> forall f sm,
  SM6 (Wok V) (get_strain2D V) (get_stress2D V) f = Some sm -> sum_ok asm_prog f sm.
Proof.
  intros D2 f sm. unfold SM6. destruct (String.eqb_spec f "get_strain2D").
  { intros [= <-]. subst f. now apply sm_strain2_ok. }
  destruct (String.eqb_spec f "get_stress2D"); [|discriminate].
  intros [= <-]. subst f. now apply sm_stress2_ok.
Qed.
Lemma fe2_strain (V : env T) u ex ey gp eps : get_strain2D V u ex ey gp = Ok eps -> fe2 eps = eps.
Proof. intros E. apply strain2_inv in E. destruct E as (-> & _). reflexivity. Qed.

(** two nested loops over the elements *)
Lemma els2_loops {M} (V : env T) (f : M -> Z -> Z -> res M) (Wd : M -> @st1 T) body names (m m' : M) :
  ~ In "ex" names -> ~ In "ey" names ->
  (forall z m, ~ In z names -> look1 z (e1 (Wd m)) = None) ->
  (forall m i, cond1 (EBin Lt (EV "ex") (EBin Sub (EFld (EV "this") "nx") (EI 1))) (with1 "ex" i (Wd m)) (i <? v_nx V - 1)) ->
  (forall m x i, cond1 (EBin Lt (EV "ey") (EBin Sub (EFld (EV "this") "ny") (EI 1))) (with1 "ey" i (with1 "ex" x (Wd m))) (i <? v_ny V - 1)) ->
  (forall x y m m', f m x y = Ok m' -> step asm_prog body (with1 "ey" y (with1 "ex" x (Wd m))) (with1 "ey" y (with1 "ex" x (Wd m')))) ->
  foldM (fun m e => let '(ex, ey) := e in f m ex ey) (els2 V) m = Ok m' ->
  step asm_prog (SFor "ex" (EI 0) (EBin Lt (EV "ex") (EBin Sub (EFld (EV "this") "nx") (EI 1)))
    (SFor "ey" (EI 0) (EBin Lt (EV "ey") (EBin Sub (EFld (EV "this") "ny") (EI 1))) body)) (Wd m) (Wd m').
Proof.
  intros NX NY NN C1 C2 HB. unfold els2. rewrite foldM_flat. intros E.
  refine (step_fold asm_prog _ "ex" _ _ _ Wd 0 _ _ _ E _ _ _ _); [intros; now apply NN|reflexivity|intros; apply C1|].
  clear E m m'. intros ex m m' IX E. rewrite foldM_map in E.
  refine (step_fold asm_prog _ "ey" _ _ _ (fun m => with1 "ex" ex (Wd m)) 0 _ _ _ E _ _ _ _); [|reflexivity|intros; apply C2|].
  { intros q. cbn. now apply NN. }
  clear E m m'. intros ey m m' IY E. apply HB. exact E.
Qed.

(** the model in two dimensions, without the variables of the cells *)
Lemma ave2_inv (V : env T) u vold vn s vn' : calc_ave_stress V u vold vn = Ok (s, vn') -> v_dim V = 2 -> vn' = vn /\
  exists a, foldM (fun st e => let '(ex, ey) := e in
    aux <- foldM (fun aux gp => eps <- get_strain2D V u ex ey gp ;; ' s <- get_stress2D V ex ey gp eps ;;
        Ok (add_ave 3 (snd s) (wg2 V) aux)) (zrange 0 4) (zeros 3) ;;
    Ok (add_vec 3 aux st)) (els2 V) (zeros 3) = Ok a /\ s = ltab 3 (fun v => odiv (lget a v) (omul (v_lx V) (v_ly V))).
Proof.
  intros E D2. unfold calc_ave_stress, nvoi in E. rewrite D2 in E. change (2 =? 2) with true in E. change (2 =? 3) with false in E. cbn match in E.
  apply bind_ok in E. destruct E as ((a & vn2) & E1 & E). cbn [fst snd] in E. injection E as <- <-.
  match goal with |- _ /\ exists x, foldM ?g _ _ = _ /\ _ =>
    assert (X : forall l z a v, foldM (fun st e => let '(ex, ey) := e in
      aux <- foldM (fun aux gp => eps <- get_strain2D V u ex ey gp ;; ' s <- get_stress2D V ex ey gp eps ;;
        Ok (add_ave 3 (snd s) (wg2 V) aux)) (zrange 0 4) (zeros 3) ;;
      Ok (add_vec 3 aux (fst st), snd st)) l (z, vn) = Ok (a, v) -> v = vn /\ foldM g l z = Ok a) end.
  { clear. induction l as [|[ex ey] l IH]; intros z a v E1.
    - cbn in E1. injection E1 as <- <-. split; reflexivity.
    - cbn [foldM] in E1. apply bind_ok in E1. destruct E1 as ((a1 & v1) & E1 & E2). apply bind_ok in E1. destruct E1 as (r & E0 & E1).
      cbn [fst snd] in E1. injection E1 as <- <-. destruct (IH _ _ _ E2) as (-> & E3). split; [reflexivity|].
      cbn [foldM]. rewrite E0. exact E3. }
  destruct (X _ _ _ _ E1) as (-> & E). split; [reflexivity|]. exists a. auto.
Qed.
Lemma fld2_inv (V : env T) u vold vn es et es' et' vn' : calc_fields V u vold vn es et = Ok (es', et', vn') -> v_dim V = 2 -> vn' = vn /\
  foldM (fun st e => let '(ex, ey) := e in
      ' a <- foldM (fun a gp =>
        eps <- get_strain2D V u ex ey gp ;;
        ' s <- get_stress2D V ex ey gp eps ;;
        Ok (add_ave 3 eps (wg2 V) (fst a), add_ave 3 (snd s) (wg2 V) (snd a)))
        (zrange 0 4) (zeros 3, zeros 3) ;;
      es <- run_stores (c2_st V ex ey (fst a)) (fst st) ;;
      et <- run_stores (c2_st V ex ey (snd a)) (snd st) ;;
      Ok (es, et)) (els2 V) (es, et) = Ok (es', et').
Proof.
  intros E D2. unfold calc_fields in E. rewrite D2 in E. change (2 =? 2) with true in E. cbn match in E.
  revert es et E. induction (els2 V) as [|[ex ey] l IH]; intros es et E1.
  - cbn in E1. injection E1 as <- <- <-. split; reflexivity.
  - cbn [foldM] in E1. apply bind_ok in E1. destruct E1 as (((e1 & t1) & v1) & E1 & E2). apply bind_ok in E1. destruct E1 as (r & E0 & E1).
    apply bind_ok in E1. destruct E1 as (e2 & S1 & E1). apply bind_ok in E1. destruct E1 as (t2 & S2 & E1).
    cbn [fst snd] in *. injection E1 as <- <- <-. destruct (IH _ _ E2) as (-> & E3). split; [reflexivity|].
    cbn [foldM]. rewrite E0. cbn [bind fst snd]. unfold c2_st at 1 2. rewrite S1. cbn [bind]. rewrite S2. exact E3.
Qed.

Section Loop.
Variables (V : env T) (u vold vn : arr T) (fs : fields) (l2 : list fields).
Hypothesis D2 : v_dim V = 2.
Notation SM := (SM6 (Wok V) (get_strain2D V) (get_stress2D V)).
Notation a2W := (a2_W V u vold vn fs l2).
Notation a2_stepV := (a2_step V (get_strain2D V) (get_stress2D V) u).
Notation n2_stepV := (n2_step V (get_strain2D V) u).
Notation c2_stepV := (c2_step V (get_strain2D V) (get_stress2D V) u).

Section Ave.
Hypothesis WO : WC2 V (Wok V) fs l2.
Lemma a2_foldM ex ey : forall l st st', Forall (fun gp => 0 <= gp < 4) l ->
  foldM (fun aux gp => eps <- get_strain2D V u ex ey gp ;; ' s <- get_stress2D V ex ey gp eps ;;
        Ok (add_ave 3 (snd s) (wg2 V) aux)) l st = Ok st' ->
  st' = fold_left (a2_stepV ex ey) l st /\ alls (flat_map (a2_conds V (Wok V) (get_strain2D V) (get_stress2D V) u fs l2 ex ey) l).
Proof.
  induction l as [|gp l IH]; intros st st' F E.
  - cbn in E. injection E as <-. cbn. auto.
  - cbn [foldM] in E. apply bind_ok in E. destruct E as (st1 & E & E2).
    apply bind_ok in E. destruct E as (eps & E1 & E). apply bind_ok in E. destruct E as ((nl & s) & E3 & E).
    cbn [fst snd] in E. injection E as E. inversion F as [|? ? Hg F']; subst.
    assert (R2 : a2_r2 (get_strain2D V) (get_stress2D V) u ex ey gp = Ok (nl, s)).
    { unfold a2_r2, a2_r1. rewrite E1. cbn [g_eps]. now rewrite (fe2_strain _ _ _ _ _ _ E1). }
    assert (ST : add_ave 3 s (wg2 V) st = a2_stepV ex ey st gp).
    { unfold a2_step. rewrite R2. reflexivity. }
    rewrite ST in E2. destruct (IH _ _ F' E2) as (-> & AL). split; [reflexivity|].
    cbn [flat_map]. apply AsmLit20.alls_app; [|exact AL]. unfold a2_conds. rewrite R2. cbn [g2_nl g2_sig alls]. unfold a2_r1. rewrite E1. cbn [g_eps]. auto 10.
Qed.
Lemma n2_foldM ex ey : forall l st st', Forall (fun gp => 0 <= gp < 4) l ->
  foldM (fun a gp => eps <- get_strain2D V u ex ey gp ;; Ok (add_ave 3 eps (wg2 V) a)) l st = Ok st' ->
  st' = fold_left (n2_stepV ex ey) l st /\ alls (flat_map (n2_conds V (Wok V) (get_strain2D V) u fs l2 ex ey) l).
Proof.
  induction l as [|gp l IH]; intros st st' F E.
  - cbn in E. injection E as <-. cbn. auto.
  - cbn [foldM] in E. apply bind_ok in E. destruct E as (st1 & E & E2).
    apply bind_ok in E. destruct E as (eps & E1 & E). injection E as E. inversion F as [|? ? Hg F']; subst.
    assert (ST : add_ave 3 eps (wg2 V) st = n2_stepV ex ey st gp).
    { unfold n2_step, a2_r1. now rewrite E1. }
    rewrite ST in E2. destruct (IH _ _ F' E2) as (-> & AL). split; [reflexivity|].
    cbn [flat_map]. apply AsmLit20.alls_app; [|exact AL]. unfold n2_conds. cbn [alls]. unfold a2_r1. rewrite E1. cbn [g_eps]. auto 10.
Qed.
Lemma gps4 : Forall (fun gp => 0 <= gp < 4) (zrange 0 4).
Proof. apply Forall_forall. intros x I. now apply in_zrange in I. Qed.

Definition a2_f (st : list T) (ex ey : Z) : res (list T) :=
  aux <- foldM (fun aux gp => eps <- get_strain2D V u ex ey gp ;; ' s <- get_stress2D V ex ey gp eps ;;
        Ok (add_ave 3 (snd s) (wg2 V) aux)) (zrange 0 4) (zeros 3) ;;
  Ok (add_vec 3 aux st).
Lemma a2_elem x y m m' : a2_f m x y = Ok m' ->
  step asm_prog av_el2 (with1 "ey" y (with1 "ex" x (a2W m))) (with1 "ey" y (with1 "ex" x (a2W m'))).
Proof.
  intros E. unfold a2_f in E. apply bind_ok in E. destruct E as (r & E & Q). injection Q as <-.
  destruct (a2_foldM x y _ _ _ gps4 E) as (ER & AL). clear E.
  pose proof (a2_run V (Wok V) (get_strain2D V) (get_stress2D V) u vold vn fs l2 x y m) as RUN.
  unfold a2_end in RUN. rewrite <- ER in RUN. clear ER.
  set (nl := g2_nl _) in RUN. clearbody nl. revert RUN AL.
  generalize (flat_map (a2_conds V (Wok V) (get_strain2D V) (get_stress2D V) u fs l2 x y) (zrange 0 4)). intros C RUN AL.
  generalize dependent (add_vec 3 r m). intros m' RUN.
  refine (step_weak _ _ _ _ _ (step_cut asm_prog SM (SM6_ok V D2) _ _ _ [] _ _ _ _ _ _ RUN AL eq_refl eq_refl) _).
  apply weaker_less; [intros q v X; exact X|]. unfold a2_W, a2_mem. cbn [app p62 fst snd with1 m1 e1].
  repeat (constructor; [apply less_refl|]). constructor; [apply (less_nci [Some _])|constructor].
Qed.
Lemma a2_gstep s vn' : calc_ave_stress V u vold vn = Ok (s, vn') -> vn' = vn /\
  exists w, gstep asm_prog (f_body ast_calc_ave_stress) (a2_pre V u vold vn fs l2 (nc 6)) w /\
    cut 7 [] w = Some (mk1 [] (p62 V fs l2 vold vn u ++ [Some (D1 (f3 s))])%list).
Proof.
  intros E. apply ave2_inv in E; [|exact D2]. destruct E as (-> & a & E1 & ->). split; [reflexivity|].
  set (s := ltab 3 (fun v => odiv (lget a v) (omul (v_lx V) (v_ly V)))).
  exists (mk1 [] (a2_mem V u vold vn fs l2 s (nc 1))). split; [|reflexivity].
  change (f_body ast_calc_ave_stress) with (seqs (firstn 2 av_list) (SSeq (nth 2 av_list SSkip) (nth 3 av_list SSkip))).
  refine (gstep_execs asm_prog SM0 SM0_ok _ _ _ _ _ _ _ _ (a2_run0 V u vold vn fs l2) I _). apply gstep_step.
  apply (step_weak1 _ _ _ (a2W (zeros 3))).
  { apply weaker_less; [|unfold a2_W, a2_mem; cbn [m1 app p62]; repeat (constructor; [apply less_refl|]); constructor].
    intros x v. cbn. repeat match goal with |- context [String.eqb x ?q] => destruct (String.eqb x q); [first [discriminate|auto]|] end. try discriminate. }
  eapply step_seq with (w2 := a2W a).
  - change (nth 2 av_list SSkip) with (SIf (EBin Eq (EFld (EV "this") "dim") (EI 2)) av_2
      (match nth 2 av_list SSkip with SIf _ _ a => a | _ => SSkip end)).
    apply (step_if asm_prog true). { exists (VI 1), []. split; [reflexivity|]. split; [exact I|reflexivity]. }
    change av_2 with (SFor "ex" (EI 0) (EBin Lt (EV "ex") (EBin Sub (EFld (EV "this") "nx") (EI 1)))
      (SFor "ey" (EI 0) (EBin Lt (EV "ey") (EBin Sub (EFld (EV "this") "ny") (EI 1))) av_el2)).
    refine (els2_loops V a2_f a2W av_el2 ["this"; "stress_ave"; "non_linear_flag"] _ _ _ _ _ _ _ _ E1);
      try (clear; cbn; intuition discriminate); try (clear; intros; apply cond_lt; reflexivity).
    + intros z m NI. cbn [In] in NI. cbn [e1 a2_W av_env look1]. repeat match goal with |- context [String.eqb z ?q] => destruct (String.eqb_spec z q); [subst; tauto|] end. reflexivity.
    + intros x y m m' E. now apply a2_elem.
  - exact (step_cut asm_prog SM0 SM0_ok _ _ _ [] _ _ _ _ _ _ (a2_run1 V u vold vn fs l2 a) I eq_refl eq_refl).
Qed.
Definition n2_f (st : list T) (ex ey : Z) : res (list T) :=
  aux <- foldM (fun aux gp => eps <- get_strain2D V u ex ey gp ;; Ok (add_ave 3 eps (wg2 V) aux)) (zrange 0 4) (zeros 3) ;;
  Ok (add_vec 3 aux st).
Lemma n2_gstep s : calc_ave_strain V u = Ok s ->
  exists w, gstep asm_prog (f_body ast_calc_ave_strain)
    (mk1 [("this", VP 0 0); ("strain_ave", VP 6 0)] (p62 V fs l2 vold vn u ++ [Some (D1 (nc 6))])%list) w /\
    cut 7 [] w = Some (mk1 [] (p62 V fs l2 vold vn u ++ [Some (D1 (f3 s))])%list).
Proof.
  intros E. unfold calc_ave_strain, nvoi in E. rewrite D2 in E. change (2 =? 2) with true in E. change (2 =? 3) with false in E. cbn match in E.
  apply bind_ok in E. destruct E as (a & E1 & E). injection E as <-.
  set (s := ltab 3 (fun v => odiv (lget a v) (omul (v_lx V) (v_ly V)))).
  exists (mk1 [] (m1 (n2_W V u vold vn fs l2 s))). split; [|reflexivity].
  change (f_body ast_calc_ave_strain) with (SSeq (block (firstn 1 an_list)) (SSeq (nth 1 an_list SSkip) (nth 2 an_list SSkip))).
  apply gstep_step.
  eapply step_seq; [exact (step_cut asm_prog SM0 SM0_ok _ _ _ [] _ _ _ _ _ _ (n2_run0 V u vold vn fs l2) I eq_refl eq_refl)|].
  eapply step_seq with (w2 := n2_W V u vold vn fs l2 a).
  - change (nth 1 an_list SSkip) with (SIf (EBin Eq (EFld (EV "this") "dim") (EI 2)) an_2
      (match nth 1 an_list SSkip with SIf _ _ a => a | _ => SSkip end)).
    apply (step_if asm_prog true). { exists (VI 1), []. split; [reflexivity|]. split; [exact I|reflexivity]. }
    change an_2 with (SFor "ex" (EI 0) (EBin Lt (EV "ex") (EBin Sub (EFld (EV "this") "nx") (EI 1)))
      (SFor "ey" (EI 0) (EBin Lt (EV "ey") (EBin Sub (EFld (EV "this") "ny") (EI 1))) an_el2)).
    refine (els2_loops V n2_f (n2_W V u vold vn fs l2) an_el2 ["this"; "strain_ave"] _ _ _ _ _ _ _ _ E1);
      try (clear; cbn; intuition discriminate); try (clear; intros; apply cond_lt; reflexivity).
    + intros z m NI. cbn [In] in NI. cbn [e1 n2_W look1]. repeat match goal with |- context [String.eqb z ?q] => destruct (String.eqb_spec z q); [subst; tauto|] end. reflexivity.
    + intros x y m m' E. unfold n2_f in E. apply bind_ok in E. destruct E as (r & E & Q). injection Q as <-.
      destruct (n2_foldM x y _ _ _ gps4 E) as (-> & AL).
      pose proof (n2_run V (Wok V) (get_strain2D V) (get_stress2D V) u vold vn fs l2 x y m) as RUN.
      exact (step_cut asm_prog SM (SM6_ok V D2) _ _ _ [] _ _ _ _ _ _ RUN AL eq_refl eq_refl).
  - exact (step_cut asm_prog SM0 SM0_ok _ _ _ [] _ _ _ _ _ _ (n2_run1 V u vold vn fs l2 a) I eq_refl eq_refl).
Qed.
End Ave.

Section Fld.
Hypothesis WO : WF2 V (Wok V) fs l2.
Notation c2W := (c2_W V u vold vn fs l2).
Lemma c2_foldM ex ey : forall l st st', Forall (fun gp => 0 <= gp < 4) l ->
  foldM (fun a gp => eps <- get_strain2D V u ex ey gp ;; ' s <- get_stress2D V ex ey gp eps ;;
        Ok (add_ave 3 eps (wg2 V) (fst a), add_ave 3 (snd s) (wg2 V) (snd a))) l st = Ok st' ->
  st' = fold_left (c2_stepV ex ey) l st /\ alls (flat_map (c2_conds V (Wok V) (get_strain2D V) (get_stress2D V) u fs l2 ex ey) l).
Proof.
  induction l as [|gp l IH]; intros st st' F E.
  - cbn in E. injection E as <-. cbn. auto.
  - cbn [foldM] in E. apply bind_ok in E. destruct E as (st1 & E & E2).
    apply bind_ok in E. destruct E as (eps & E1 & E). apply bind_ok in E. destruct E as ((nl & s) & E3 & E).
    cbn [fst snd] in E. injection E as E. inversion F as [|? ? Hg F']; subst.
    assert (R2 : a2_r2 (get_strain2D V) (get_stress2D V) u ex ey gp = Ok (nl, s)).
    { unfold a2_r2, a2_r1. rewrite E1. cbn [g_eps]. now rewrite (fe2_strain _ _ _ _ _ _ E1). }
    assert (ST : (add_ave 3 eps (wg2 V) (fst st), add_ave 3 s (wg2 V) (snd st)) = c2_stepV ex ey st gp).
    { unfold c2_step. rewrite R2. unfold a2_r1. rewrite E1. reflexivity. }
    rewrite ST in E2. destruct (IH _ _ F' E2) as (-> & AL). split; [reflexivity|].
    cbn [flat_map]. apply AsmLit20.alls_app; [|exact AL]. unfold c2_conds. rewrite R2. cbn [g2_nl g2_sig alls]. unfold a2_r1. rewrite E1. cbn [g_eps]. auto 10.
Qed.
Definition c2_f (st : arr T * arr T) (ex ey : Z) : res (arr T * arr T) :=
      ' a <- foldM (fun a gp =>
        eps <- get_strain2D V u ex ey gp ;;
        ' s <- get_stress2D V ex ey gp eps ;;
        Ok (add_ave 3 eps (wg2 V) (fst a), add_ave 3 (snd s) (wg2 V) (snd a)))
        (zrange 0 4) (zeros 3, zeros 3) ;;
      es <- run_stores (c2_st V ex ey (fst a)) (fst st) ;;
      et <- run_stores (c2_st V ex ey (snd a)) (snd st) ;;
      Ok (es, et).
Lemma c2_elem x y m m' : c2_f m x y = Ok m' ->
  step asm_prog cf_el2 (with1 "ey" y (with1 "ex" x (c2W m))) (with1 "ey" y (with1 "ex" x (c2W m'))).
Proof.
  intros E. unfold c2_f in E. apply bind_ok in E. destruct E as (r & E & Q).
    apply bind_ok in Q. destruct Q as (es & Q1 & Q). apply bind_ok in Q. destruct Q as (et & Q2 & Q). injection Q as <-.
    destruct (c2_foldM x y _ _ _ gps4 E) as (ER & AL). clear E.
    destruct (stores_wrs _ _ _ Q1) as (A1 & ->). destruct (stores_wrs _ _ _ Q2) as (A2 & ->). clear Q1 Q2.
    pose proof (c2_run V (Wok V) (get_strain2D V) (get_stress2D V) u vold vn fs l2 x y m) as RUN. cbv zeta in RUN.
    rewrite c2_end_eq, <- ER in RUN.
    set (nl := g2_nl _) in RUN. clearbody nl. clear ER.
    set (e' := wrs (c2_st V x y (fst r)) (fst m)) in *.
    set (t' := wrs (c2_st V x y (snd r)) (snd m)) in *.
    assert (AL2 := AsmLit20.alls_app _ _ AL (cds2_alls _ _ _ _ A1 A2)). clear AL A1 A2.
    revert RUN AL2. generalize (flat_map (c2_conds V (Wok V) (get_strain2D V) (get_stress2D V) u fs l2 x y) (zrange 0 4) ++
      cds2 (c2_st V x y (fst r)) (c2_st V x y (snd r)) (fst m) (snd m))%list. intros C RUN AL2.
    clearbody e' t'.
    refine (step_weak _ _ _ _ _ (step_cut asm_prog SM (SM6_ok V D2) _ _ _ [] _ _ _ _ _ _ RUN AL2 eq_refl eq_refl) _).
    apply weaker_less; [intros q v X; exact X|]. unfold c2_W, c2_mem. cbn [app p82 fst snd with1 m1 e1].
    repeat (constructor; [apply less_refl|]). constructor; [apply (less_nci [Some _])|constructor].
Qed.
Lemma c2_gstep es et es' et' vn' : calc_fields V u vold vn es et = Ok (es', et', vn') -> vn' = vn /\
  exists w, gstep asm_prog (f_body ast_calc_fields) (mk1 [("this", VP 0 0)] (p82 V u vold vn fs l2 es et)) w /\
    cut 8 [] w = Some (mk1 [] (p82 V u vold vn fs l2 es' et')).
Proof.
  intros E. apply fld2_inv in E; [|exact D2]. destruct E as (-> & E). split; [reflexivity|].
  exists (c2W (es', et')). split; [|reflexivity].
  change (f_body ast_calc_fields) with (seqs (firstn 1 cf_list) (nth 1 cf_list SSkip)).
  refine (gstep_execs asm_prog SM0 SM0_ok _ _ _ _ _ _ _ _ (c2_run0 V u vold vn fs l2 (es, et)) I _). apply gstep_step.
  change (nth 1 cf_list SSkip) with (SIf (EBin Eq (EFld (EV "this") "dim") (EI 2)) cf_2
      (match nth 1 cf_list SSkip with SIf _ _ a => a | _ => SSkip end)).
  apply (step_if asm_prog true). { exists (VI 1), []. split; [reflexivity|]. split; [exact I|reflexivity]. }
  change cf_2 with (SFor "ex" (EI 0) (EBin Lt (EV "ex") (EBin Sub (EFld (EV "this") "nx") (EI 1)))
      (SFor "ey" (EI 0) (EBin Lt (EV "ey") (EBin Sub (EFld (EV "this") "ny") (EI 1))) cf_el2)).
  refine (els2_loops V c2_f c2W cf_el2 ["this"; "non_linear_flag"] _ _ _ _ _ _ _ _ E);
      try (clear; cbn; intuition discriminate); try (clear; intros; apply cond_lt; reflexivity).
  - intros z m NI. cbn [In] in NI. cbn [e1 c2_W cf_env look1]. repeat match goal with |- context [String.eqb z ?q] => destruct (String.eqb_spec z q); [subst; tauto|] end. reflexivity.
  - intros x y m m' E'. now apply c2_elem.
Qed.
End Fld.
End Loop.

Lemma p62_at V A fs l2 vold vnew u h ad l : ad = (body_addrs A ++ l)%list ->
  h (a_this A) = Some (OS fs) -> this_in fs V A -> h (a_et A) = Some (OI (v_etype V)) -> h (a_ml A) = Some (OV l2) ->
  h (a_vo A) = Some (OD vold) -> h (a_vn A) = Some (OD vnew) -> h (a_u A) = Some (OD u) ->
  v_dim V = 2 -> atall ad (body_addrs A) (p62 V fs l2 vold vnew u) h.
Proof.
  intros -> H1 TI H2 H3 H4 H5 H6 D2. unfold p62, body_addrs. cbn -[this_flds].
  splits; try exact I; (eexists; split; [eassumption|]); try reflexivity.
  - split; [reflexivity|]. apply (this_rfs _ fs 2 (v_type V) V A); auto; try exact I; eexists; split; reflexivity.
  - split; [reflexivity|]. intros i fs2 E. destruct i; discriminate.
Qed.
Lemma p62_get V A fs l2 vold vnew u h full : mats_in l2 V -> this_in fs V A ->
  atall full (body_addrs A) (p62 V fs l2 vold vnew u) h -> body V A vold vnew u h.
Proof.
  intros MI TI AT. unfold p62, body_addrs in AT. cbn -[this_flds ro] in AT.
  destruct AT as ((o0 & M0 & R0) & (o1 & M1 & R1') & (o2 & M2 & R2) & (o3 & M3 & R3) & (o4 & M4 & R4) &
      (o5 & M5 & R5) & _).
  cbn [ro] in *. destruct R0 as (-> & _). destruct R2 as (-> & _). subst. exists fs, l2. auto 10.
Qed.

(** calc_ave_stress *)
Theorem calc_ave_stress2D_text V A vold vnew u h k bs as_ s vnew' :
  v_dim V = 2 -> NoDup (body_addrs A ++ [bs])%list -> Forall (fun a => a < k) (body_addrs A ++ [bs])%list ->
  body V A vold vnew u h -> h bs = Some (OD as_) -> alen as_ = 6 ->
  calc_ave_stress V u vold vnew = Ok (s, vnew') ->
  exists st as', calls asm_prog "calc_ave_stress" [VP (a_this A) 0; VP bs 0] h k (Ok (st, Nrm)) /\
    vnew' = vnew /\ body V A vold vnew u (mem st) /\ mem st bs = Some (OD as') /\ alen as' = 6 /\ pvec 3 as' s /\
    frame h (mem st) k [bs] /\ k <= nxt st.
Proof.
  intros D2 ND FK (fs & l2 & B0 & B1 & B2' & B3' & B4 & B5 & B6 & B7) HB LB M.
  assert (WO : WC2 V (Wok V) fs l2). { split; [exists A; exact B1|]. splits; assumption || reflexivity. }
  destruct (a2_gstep V u vold vnew fs l2 D2 WO s vnew' M) as (-> & w & GS & CU).
  set (ad := (body_addrs A ++ [bs])%list) in *.
  destruct (calls_gstep asm_prog "calc_ave_stress" ast_calc_ave_stress [VP 0 0; VP 6 0] [VP (a_this A) 0; VP bs 0] _
    ad (m1 (a2_pre V u vold vnew fs l2 (nc 6))) h k _ _ eq_refl eq_refl GS CU) as (st & C & MS & (K1' & K2')).
  { apply atall_msim; [|exact ND|exact FK]. change ad with (body_addrs A ++ [bs])%list at 2.
    refine (atall_app _ _ _ _ _ _ _ _).
    - eapply p62_at; eauto. reflexivity.
    - cbn -[nc]. split; [|exact I]. eexists. split; [exact HB|]. eexists. split; [reflexivity|]. now apply nc_cells. }
  { repeat constructor; eexists; split; reflexivity. }
  apply msim_atall0 in MS. cbn [m1] in MS. change ad with (body_addrs A ++ [bs])%list in MS at 2.
  apply atall_split in MS; [|reflexivity]. destruct MS as (AT1 & AT2).
  cbn -[f3] in AT2. destruct AT2 as ((o2 & M2 & (as' & -> & R2)) & _).
  assert (BD := p62_get _ A _ _ _ _ _ _ _ B4 B1 AT1).
  exists st, as'. split; [exact C|]. split; [reflexivity|]. split; [exact BD|]. split; [exact M2|]. split; [apply R2|]. split; [intros i Hi; exact (cells_pvec _ _ _ R2 i Hi)|]. split; [|exact K1'].
  intros c LC N. destruct (in_dec Z.eq_dec c ad) as [IN|IN]; [|now apply K2'].
  clear -IN N AT1 B0 B2' B3' B5 B6 B7. unfold p62, body_addrs in AT1. cbn -[this_flds ro] in AT1.
  destruct AT1 as ((o0 & Q0 & R0) & (o1 & Q1 & R1') & (o2 & Q2 & R2) & (o3 & Q3 & R3) & (o4 & Q4 & R4) &
      (o5 & Q5 & R5) & _). cbn [ro] in *. destruct R0 as (-> & _). destruct R2 as (-> & _). subst.
  cbn in IN, N. repeat destruct IN as [IN|IN]; try subst c; try tauto; congruence.
Qed.

(** calc_ave_strain *)
Theorem calc_ave_strain2D_text V A vold vnew u h k bs as_ s :
  v_dim V = 2 -> NoDup (body_addrs A ++ [bs])%list -> Forall (fun a => a < k) (body_addrs A ++ [bs])%list ->
  body V A vold vnew u h -> h bs = Some (OD as_) -> alen as_ = 6 ->
  calc_ave_strain V u = Ok s ->
  exists st as', calls asm_prog "calc_ave_strain" [VP (a_this A) 0; VP bs 0] h k (Ok (st, Nrm)) /\
    body V A vold vnew u (mem st) /\ mem st bs = Some (OD as') /\ alen as' = 6 /\ pvec 3 as' s /\
    frame h (mem st) k [bs] /\ k <= nxt st.
Proof.
  intros D2 ND FK (fs & l2 & B0 & B1 & B2' & B3' & B4 & B5 & B6 & B7) HB LB M.
  assert (WO : WC2 V (Wok V) fs l2). { split; [exists A; exact B1|]. splits; assumption || reflexivity. }
  destruct (n2_gstep V u vold vnew fs l2 D2 WO s M) as (w & GS & CU).
  set (ad := (body_addrs A ++ [bs])%list) in *.
  destruct (calls_gstep asm_prog "calc_ave_strain" ast_calc_ave_strain [VP 0 0; VP 6 0] [VP (a_this A) 0; VP bs 0] _
    ad _ h k _ _ eq_refl eq_refl GS CU) as (st & C & MS & (K1' & K2')).
  { apply atall_msim; [|exact ND|exact FK]. change ad with (body_addrs A ++ [bs])%list at 2.
    refine (atall_app _ _ _ _ _ _ _ _).
    - eapply p62_at; eauto. reflexivity.
    - cbn -[nc]. split; [|exact I]. eexists. split; [exact HB|]. eexists. split; [reflexivity|]. now apply nc_cells. }
  { repeat constructor; eexists; split; reflexivity. }
  apply msim_atall0 in MS. cbn [m1] in MS. change ad with (body_addrs A ++ [bs])%list in MS at 2.
  apply atall_split in MS; [|reflexivity]. destruct MS as (AT1 & AT2).
  cbn -[f3] in AT2. destruct AT2 as ((o2 & M2 & (as' & -> & R2)) & _).
  assert (BD := p62_get _ A _ _ _ _ _ _ _ B4 B1 AT1).
  exists st, as'. split; [exact C|]. split; [exact BD|]. split; [exact M2|]. split; [apply R2|]. split; [intros i Hi; exact (cells_pvec _ _ _ R2 i Hi)|]. split; [|exact K1'].
  intros c LC N. destruct (in_dec Z.eq_dec c ad) as [IN|IN]; [|now apply K2'].
  clear -IN N AT1 B0 B2' B3' B5 B6 B7. unfold p62, body_addrs in AT1. cbn -[this_flds ro] in AT1.
  destruct AT1 as ((o0 & Q0 & R0) & (o1 & Q1 & R1') & (o2 & Q2 & R2) & (o3 & Q3 & R3) & (o4 & Q4 & R4) &
      (o5 & Q5 & R5) & _). cbn [ro] in *. destruct R0 as (-> & _). destruct R2 as (-> & _). subst.
  cbn in IN, N. repeat destruct IN as [IN|IN]; try subst c; try tauto; congruence.
Qed.
(** calc_fields *)
Theorem calc_fields2D_text V A vold vnew u es et h k es' et' vnew' :
  v_dim V = 2 -> NoDup (body_addrs A ++ [a_en A; a_es A])%list -> Forall (fun a => a < k) (body_addrs A ++ [a_en A; a_es A])%list ->
  body V A vold vnew u h -> h (a_en A) = Some (OD es) -> h (a_es A) = Some (OD et) ->
  calc_fields V u vold vnew es et = Ok (es', et', vnew') ->
  exists st, calls asm_prog "calc_fields" [VP (a_this A) 0] h k (Ok (st, Nrm)) /\
    vnew' = vnew /\ body V A vold vnew u (mem st) /\ mem st (a_en A) = Some (OD es') /\ mem st (a_es A) = Some (OD et') /\
    frame h (mem st) k [a_en A; a_es A] /\ k <= nxt st.
Proof.
  intros D2 ND FK (fs & l2 & B0 & B1 & B2' & B3' & B4 & B5 & B6 & B7) HN HS M.
  assert (WO : WF2 V (Wok V) fs l2). { split; [exists A; exact B1|]. splits; assumption || reflexivity. }
  destruct (c2_gstep V u vold vnew fs l2 D2 WO es et es' et' vnew' M) as (-> & w & GS & CU).
  set (ad := (body_addrs A ++ [a_en A; a_es A])%list) in *.
  destruct (calls_gstep asm_prog "calc_fields" ast_calc_fields [VP 0 0] [VP (a_this A) 0] _
    ad _ h k _ _ eq_refl eq_refl GS CU) as (st & C & MS & (K1' & K2')).
  { apply atall_msim; [|exact ND|exact FK]. unfold ad, p82, body_addrs, flds_f2. cbn -[this_flds].
    splits; try exact I; (eexists; split; [eassumption|]); try reflexivity.
    - split; [reflexivity|]. apply (this_rfs _ fs 2 (v_type V) V A); auto; try exact I; eexists; split; reflexivity.
    - split; [reflexivity|]. intros i fs2 E. destruct i; discriminate. }
  { repeat constructor; eexists; split; reflexivity. }
  apply msim_atall0 in MS. cbn [m1] in MS. unfold ad, body_addrs, p82 in MS. cbn -[flds_f2 ro] in MS.
  destruct MS as ((o0 & Q0 & R0) & (o1 & Q1 & R1') & (o2 & Q2 & R2) & (o3 & Q3 & R3) & (o4 & Q4 & R4) &
      (o5 & Q5 & R5) & (o6 & Q6 & R6) & (o7 & Q7 & R7) & _). cbn [ro] in *. destruct R0 as (-> & _). destruct R2 as (-> & _). subst.
  exists st. split; [exact C|]. split; [reflexivity|]. split; [exists fs, l2; auto 10|]. split; [exact Q6|]. split; [exact Q7|]. split; [|exact K1'].
  intros c LC N. destruct (in_dec Z.eq_dec c ad) as [IN|IN]; [|now apply K2'].
  clear -IN N B0 B2' B3' B5 B6 B7 Q0 Q1 Q2 Q3 Q4 Q5. subst ad.
  cbn in IN, N. repeat destruct IN as [IN|IN]; try subst c; try tauto; congruence.
Qed.
End Asm.
