(** The syntax trees of src/assembly.cpp against the model: summary of get_elem_rhs3D, and the
    runs of the body of the element loop of assembly_rhs. *)
From Coq Require Import String.
From Verif Require Import Base Scalar Clite CliteRules EllAst AsmAst Sym SymStep SymFold Grid EllModel AssemblyModel
  EllLit2 AsmLit AsmLit2 AsmLit3 AsmLit4 AsmLit5 AsmLit6 AsmLit7 AsmLit8.
Local Open Scope string_scope.
Local Open Scope Z_scope.

Section Asm.
Context {T : Type} `{OT : Ops T}.
Notation val := (@val T). Notation obj := (@obj T). Notation obj1 := (@obj1 T).
Notation fields := (list (string * option val)).

(** ** summary of get_elem_rhs3D *)
Definition rhs_res : Type := res (list T * bool * arr T).
Definition q_be (r : rhs_res) : list T := match r with Ok (b, _, _) => b | Err _ => [] end.
Definition q_nl (r : rhs_res) : bool := match r with Ok (_, n, _) => n | Err _ => false end.
Definition q_vn (vn : arr T) (r : rhs_res) : arr T := match r with Ok (_, _, v) => v | Err _ => vn end.
Definition sm_rhs (W : fields -> fields -> arr Z -> list fields -> Prop)
  (gr : arr T -> arr T -> arr T -> Z -> Z -> Z -> rhs_res) : @summary T := fun m vs =>
  match pref m, vs with
  | Some (fs, f1, et, l2, vo, vn, u), [VP 0 0; VI ex; VI ey; VI ez; VP bl 0; VP bb 0] =>
      match at1 m bl, at1 m bb with
      | Some (Some (I1 ll)), Some (Some (D1 lb)) =>
          if Nat.eqb (List.length ll) 1 && Nat.eqb (List.length lb) 24 && (6 <=? bl) && (6 <=? bb) then
            bind1 (when1 (W fs f1 et l2) tt) (fun _ =>
            let r := gr u vo vn ex ey ez in
            bind1 (when1 (r = Ok (q_be r, q_nl r, q_vn vn r)) tt) (fun _ =>
            bind1 (ask1 (q_nl r)) (fun d =>
              ret1 (repl1 (Z.to_nat bb) (Some (D1 (fc 24 (lget (q_be r)))))
                   (repl1 (Z.to_nat bl) (Some (I1 [Some (if d then 1 else 0)]))
                   (repl1 4%nat (Some (Opq (q_vn vn r))) m))))))
          else none1
      | _, _ => none1
      end
  | _, _ => none1
  end.

Lemma sm_rhs_ok V : v_dim V = 3 -> sum_ok asm_prog "get_elem_rhs3D" (sm_rhs (Wok V) (get_elem_rhs3D V)).
Proof.
  intros D3 m vs q m' q2 p ad h k vs2 E AL SIM R. unfold sm_rhs in E.
  destruct (pref m) as [[[[[[[fs f1] et] l2] vo] vn] u]|] eqn:PF; [|discriminate].
  destruct vs as [|[| |b0 o0|] vs]; try discriminate E.
  destruct b0; try discriminate E; destruct o0; try discriminate E.
  destruct vs as [|[ex| | |] vs]; try discriminate E.
  destruct vs as [|[ey| | |] vs]; try discriminate E.
  destruct vs as [|[ez| | |] vs]; try discriminate E.
  destruct vs as [|[| |bl ol|] vs]; try discriminate E.
  destruct ol; try discriminate E.
  destruct vs as [|[| |b ob|] vs]; try discriminate E.
  destruct ob; try discriminate E. destruct vs; try discriminate E.
  destruct (at1 m bl) as [[[|ll| | | | | | | |]|]|] eqn:ML; try discriminate.
  destruct (at1 m b) as [[[l| | | | | | | | |]|]|] eqn:MB; try discriminate.
  destruct (Nat.eqb_spec (List.length ll) 1) as [L1|]; [|discriminate].
  destruct (Nat.eqb_spec (List.length l) 24) as [LL|]; [|discriminate].
  destruct (Z.leb_spec 6 bl) as [NL|]; [|discriminate].
  destruct (Z.leb_spec 6 b) as [NB|]; [|discriminate]. cbn [andb] in E. cbv zeta in E.
  set (r := get_elem_rhs3D V u vo vn ex ey ez) in *.
  unfold when1, bind1, ret1, ask1 in E. destruct q as [|d q]; [discriminate|].
  injection E as <- <- <-. destruct AL as (WK & OK & DD & _).
  destruct (pref_body V _ _ _ _ _ _ _ _ _ _ _ PF SIM WK) as (A & BD & HT & TI & F6).
  destruct (msim_at _ _ _ _ _ _ SIM MB) as (ab & o3 & Ab & Lb & Ib & Hb & (aa & -> & CB)).
  destruct (msim_at _ _ _ _ _ _ SIM ML) as (al & o4 & Al & Ll & Il & Hl & (fl & -> & CL)).
  assert (ND : NoDup ad) by apply SIM. assert (LK : forall c, In c ad -> c < k) by apply SIM.
  assert (NBL : b <> bl) by congruence.
  assert (N7 : NoDup (body_addrs A ++ [ab; al])%list).
  { apply (at1_NoDup ad ([0; 1; 2; 3; 4; 5] ++ [b; bl])%list); [exact ND| |].
    - repeat constructor; cbn; lia.
    - apply Forall2_app; [exact F6|]. constructor; [exact Ab|constructor; [exact Al|constructor]]. }
  assert (K7 : Forall (fun a => a < k) (body_addrs A ++ [ab; al])%list).
  { apply Forall_app. split; [|repeat constructor; assumption]. clear -F6 LK.
    apply Forall_forall. intros a I.
    assert (J : exists i, at1 ad i = Some a).
    { induction F6 as [|i b x y H F IH]; [contradiction|]. destruct I as [<-|I]; eauto. }
    destruct J as (i & J). apply LK. eapply at1_in; eauto. }
  assert (X0 : at1 ad 0 = Some (a_this A)) by (inversion F6; assumption).
  assert (X4 : at1 ad 4 = Some (a_vn A)).
  { clear -F6. unfold body_addrs in F6.
    inversion_clear F6 as [|? ? ? ? _ F1']. inversion_clear F1' as [|? ? ? ? _ F2].
    inversion_clear F2 as [|? ? ? ? _ F3]. inversion_clear F3 as [|? ? ? ? _ F4]. now inversion_clear F4. }
  repeat match goal with H : Forall2 (rvr ad) (_ :: _) _ |- _ => inversion H; clear H; subst end.
  match goal with H : Forall2 (rvr ad) [] _ |- _ => inversion H; clear H; subst end.
  repeat match goal with H : rvr ad (VI _) _ |- _ => cbn in H; subst end.
  repeat match goal with H : rvr ad (VP _ _) _ |- _ => let x := fresh "x" in let X := fresh "X" in destruct H as (x & X & ->) end.
  match goal with |- context [[VP ?x 0; VI _; VI _; VI _; VP ?z 0; VP ?y 0]] =>
    assert (x = a_this A) by congruence; assert (y = ab) by congruence; assert (z = al) by congruence; subst x y z end.
  destruct (get_elem_rhs3D_text V A vo vn u h k ab al aa fl ex ey ez (q_be r) (q_nl r) (q_vn vn r) D3 N7 K7 BD Hb)
    as (st & ab' & fl' & C & BD' & M & CE & M2 & L2 & F2 & FR & KN); auto.
  { destruct CB as (LB & _). rewrite LB, LL. reflexivity. }
  { destruct CL as (LB & _). rewrite LB, L1. reflexivity. }
  destruct BD' as (fs' & l2' & _ & _ & _ & _ & _ & _ & Q6 & _).
  exists st, Nrm. split; [exact C|]. split; [discriminate|]. split.
  - apply (msim_upds ad (mem st) (nxt st)
      [mkUpd 4 (a_vn A) (Opq (q_vn vn r)) (OD (q_vn vn r));
       mkUpd bl al (I1 [Some (if q_nl r then 1 else 0)]) (OI fl');
       mkUpd b ab (D1 (fc 24 (lget (q_be r)))) (OD ab')] _ h k); [exact SIM|exact KN| |].
    2:{ intros c LC N. apply FR; [exact LC|]. intros I. apply N. cbn in *. tauto. }
    repeat constructor; try assumption; cbn -[fc].
    + eexists. split; [reflexivity|]. split; [exact L2|]. intros [|[|i]] v V'; cbn in V'; try discriminate.
      injection V' as <-. exact F2.
    + eexists. split; [reflexivity|]. apply vec_cells. exact CE.
  - split; [exact KN|]. intros c LC N. apply FR; [exact LC|]. cbn. intros [<-|[<-|[<-|[]]]]; auto.
    apply N. eapply at1_in; eauto.
Qed.

(** ** the element loop of assembly_rhs *)
Definition for_body (c : stmt) : stmt := match c with SSeq _ (SWhile _ b _) => b | _ => SSkip end.
Definition as_list : list stmt := Eval cbv in unblock 10 (f_body ast_assembly_rhs).
Definition as_3 : stmt := Eval cbv in match nth 5 as_list SSkip with SIf _ _ (SIf _ b _) => b | _ => SSkip end.
Definition as_list3 : list stmt := Eval cbv in unblock 7 as_3.
Definition el_list : list stmt := Eval cbv in unblock 11 (for_body (for_body (for_body (nth 1 as_list3 SSkip)))).

(** the object with its vector b *)
Definition flds_b (V : env T) : fields :=
  this_flds 3 (v_type V) V (ptr 1) (ptr 2) (ptr 3) (ptr 4) (ptr 5) (ptr 6) None None None None.
Definition pre7 (V : env T) (fs : fields) l2 vold vnew u b : list (option obj1) :=
  [Some (R1 fs (flds_b V)); Some (K1 (v_etype V) 0); Some (V1 l2 []); Some (Opq vold); Some (Opq vnew); Some (Opq u);
   Some (Opq b)].
Definition bz (b : bool) : Z := if b then 1 else 0.

Section Gen.
Variable V : env T.
Variable W : fields -> fields -> arr Z -> list fields -> Prop.
Variable gr : arr T -> arr T -> arr T -> Z -> Z -> Z -> rhs_res.
Definition SM4 : string -> option (@summary T) := fun f =>
  if String.eqb f "get_elem_rhs3D" then Some (sm_rhs W gr) else None.
Variables (u vold : arr T) (fs : fields) (l2 : list fields).

Definition el_mem (vn b : arr T) (fl : Z) idx nle be : list (option obj1) :=
  (pre7 V fs l2 vold vn u b ++ [Some (I1 [Some fl]); Some (I1 idx); Some (I1 nle); Some (D1 be)])%list.
Definition el_env : list (string * val) :=
  [("this", VP 0 0); ("non_linear", VP 7 0); ("index", VP 8 0); ("non_linear_one_elem", VP 9 0); ("be", VP 10 0)].
Definition el_W (st : arr T * bool * arr T) : @st1 T :=
  mk1 el_env (el_mem (snd st) (fst (fst st)) (bz (snd (fst st))) (nc 24) (nc 1) (nc 24)).
(** index[] of the element *)
Definition el_idx (ex ey ez : Z) : Z -> Z := fun i => znth (sn3 (v_nx V) (v_ny V) ex ey ez) (i / 3) * 3 + i mod 3.
Definition el_idxs (ex ey ez : Z) : list (option Z) := map (fun i => Some (el_idx ex ey ez (Z.of_nat i))) (seq 0 24).
Definition el_env2 (ex ey ez : Z) : list (string * val) :=
  (("ez", VI ez) :: ("ey", VI ey) :: ("ex", VI ex) :: el_env).
Definition el_names : list string := ["ez"; "ey"; "ex"; "this"; "non_linear"; "index"; "non_linear_one_elem"; "be"].
Lemma el_run ex ey ez (vn b : arr T) nl d : let r := gr u vold vn ex ey ez in
  cut3 11 el_names (out3 (execs1 asm_prog SM4 100 (removelast el_list)
    (mk1 (el_env2 ex ey ez) (el_mem vn b (bz nl) (nc 24) (nc 1) (nc 24))) [d])) =
  Some (mk1 (el_env2 ex ey ez)
         (el_mem (q_vn vn r) b (if d then 1 else bz nl) (el_idxs ex ey ez) [Some (bz d)] (fc 24 (lget (q_be r)))),
    [W fs (flds_b V) (v_etype V) l2; r = Ok (q_be r, q_nl r, q_vn vn r); q_nl r = d]).
Proof. destruct d; cbv zeta; vmr. Qed.
(** b[index[i]] += be[i] *)
Lemma add_run ex ey ez vn b fl nle be i : 0 <= i < 24 ->
  let w b := mk1 (("i", VI i) :: el_env2 ex ey ez) (el_mem vn b fl (el_idxs ex ey ez) nle (fc 24 (lget be))) in
  let a := el_idx ex ey ez i in let v := oadd (rdv b a) (lget be i) in
  cut3 11 ("i" :: el_names) (out3 (execs1 asm_prog SM4 9 [for_body (last el_list SSkip)] (w b) [])) =
  Some (w (wrv b a v), [rd b a = Ok (rdv b a); wr b a v = Ok (wrv b a v)]).
Proof.
  intros R. assert (I : In i (zrange 0 24)) by now apply in_zrange.
  change (zrange 0 24) with [0;1;2;3;4;5;6;7;8;9;10;11;12;13;14;15;16;17;18;19;20;21;22;23] in I. clear R. cbv zeta.
  repeat (destruct I as [<-|I]; [vmr|]). destruct I.
Qed.
End Gen.
End Asm.
